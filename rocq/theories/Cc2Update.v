(** One CC2 iteration, with the loops of LoopModel.v. *)
From Coq Require Import Reals Arith List.
From Verif Require Import RSum IntegralsModel TensorObjs LoopModel CcsdModel CcsdUpdate Cc2Model.
Open Scope R_scope.

(** cc2.py, update, lines 10-40, flag_RHF = False; the Fortran calls are lines 56-58, 75-77, 89-91, 107-109, 121-123 *)
Definition cc2_iter (d : dims) (shift : R) (H : ints) (T : amps) : amps :=
  let U1 := set_a T (fst (upd_t1 (noa d) (nua d) (x_a T) (cc2_res_a d H T T) (i_a_oo H) (i_a_vv H) shift)) in
  let U2 := set_b U1 (fst (upd_t1 (nob d) (nub d) (x_b U1) (cc2_res_b d H T U1) (i_b_oo H) (i_b_vv H) shift)) in
  let U3 := set_aa U2 (fst (upd_t2 (noa d) (nua d) (x_aa U2) (cc2_res_aa d H T U2) (i_a_oo H) (i_a_vv H) shift)) in
  let U4 := set_ab U3 (fst (upd_t2b (noa d) (nob d) (nua d) (nub d) (x_ab U3) (cc2_res_ab d H T U3) (i_a_oo H) (i_a_vv H) (i_b_oo H) (i_b_vv H) shift)) in
  set_bb U4 (fst (upd_t2 (nob d) (nub d) (x_bb U4) (cc2_res_bb d H T U4) (i_b_oo H) (i_b_vv H) shift)).
(** ... and flag_RHF = True: T.b = T.a.copy() after the T1a update, T.bb = T.aa.copy() after the T2b update *)
Definition rcc2_iter (d : dims) (shift : R) (H : ints) (T : amps) : amps :=
  let U1 := set_a T (fst (upd_t1 (noa d) (nua d) (x_a T) (rcc2_res_a d H T T) (i_a_oo H) (i_a_vv H) shift)) in
  let U2 := set_b U1 (x_a U1) in
  let U3 := set_aa U2 (fst (upd_t2 (noa d) (nua d) (x_aa U2) (rcc2_res_aa d H T U2) (i_a_oo H) (i_a_vv H) shift)) in
  let U4 := set_ab U3 (fst (upd_t2b (noa d) (nob d) (nua d) (nub d) (x_ab U3) (rcc2_res_ab d H T U3) (i_a_oo H) (i_a_vv H) (i_b_oo H) (i_b_vv H) shift)) in
  set_bb U4 (x_aa U4).

(** The residual of the amplitude equations: what the update divides by the energy denominators (cc2.py lines 56-58, 75-77, 89-91, 107-109, 121-123;
    the four-term combination is cc_loops2.f90 lines 77 and 143) *)
Definition cc2_resid (d : dims) (H : ints) (T : amps) : amps :=
  mkAmps (cc2_res_a d H T T) (cc2_res_b d H T T) (four_term (cc2_res_aa d H T T)) (cc2_res_ab d H T T) (four_term (cc2_res_bb d H T T))
         (fun _ _ _ _ _ _ => 0) (fun _ _ _ _ _ _ => 0) (fun _ _ _ _ _ _ => 0) (fun _ _ _ _ _ _ => 0).
