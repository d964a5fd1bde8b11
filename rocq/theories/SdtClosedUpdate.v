(** One iteration of CCSDT with flag_RHF = True: ccpy/cc/ccsdt.py, update, lines 11-51, with the update loops of CcsdUpdate.v and CcsdtUpdate.v. *)
From Coq Require Import Reals Arith List.
From Verif Require Import RSum IntegralsModel TensorObjs LoopModel CcsdUpdate CcsdtUpdate SdtClosedModel.
Local Open Scope R_scope.
(** The order of the blocks in update: a loop for the blocks a, aa, ab, aaa, aab, a copy for b, bb, abb, bbb *)
Definition closed_iter (fa : amps -> mat2) (faa fab : amps -> mat4) (faaa faab : amps -> mat6) (copied : amps -> amps) (T : amps) : amps :=
  let U1 := set_a T (fa T) in
  let U2 := set_b U1 (x_b (copied U1)) in
  let U3 := set_aa U2 (faa U2) in
  let U4 := set_ab U3 (fab U3) in
  let U5 := set_bb U4 (x_bb (copied U4)) in
  let U6 := set_aaa U5 (faaa U5) in
  let U7 := set_aab U6 (faab U6) in
  let U8 := set_abb U7 (x_abb (copied U7)) in
  set_bbb U8 (x_bbb (copied U8)).
(** ccsdt.py, update, flag_RHF = True.  T: the amplitudes when the iteration starts (read by the first intermediates); U: the object being updated; rccsdt_T: the copies made
    in lines 18, 30, 43, 45, as translated in SdtClosedModel.v *)
Definition rccsdt_iter (d : dims) (shift : R) (H : ints) (T : amps) : amps :=
  closed_iter
    (fun U => fst (upd_t1 (noa d) (nua d) (x_a U) (rccsdt_res_a d H T U) (i_a_oo H) (i_a_vv H) shift))
    (fun U => fst (upd_t2 (noa d) (nua d) (x_aa U) (rccsdt_res_aa d H T U) (i_a_oo H) (i_a_vv H) shift))
    (fun U => fst (upd_t2b (noa d) (nob d) (nua d) (nub d) (x_ab U) (rccsdt_res_ab d H T U) (i_a_oo H) (i_a_vv H) (i_b_oo H) (i_b_vv H) shift))
    (fun U => fst (upd_t3 (noa d) (nua d) (x_aaa U) (rccsdt_res_aaa d H T U) (i_a_oo H) (i_a_vv H) shift))
    (fun U => fst (upd_t3b (noa d) (nob d) (nua d) (nub d) (x_aab U) (rccsdt_res_aab d H T U) (i_a_oo H) (i_a_vv H) (i_b_oo H) (i_b_vv H) shift))
    (rccsdt_T d H T) T.
