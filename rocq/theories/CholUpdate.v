(** One CCSD iteration with Cholesky vectors: ccpy/cc/ccsd_chol.py, update (lines 10-115), flag_RHF = False.  The arrays handed to the Fortran update loops are
    those of CholModel.v, the loops those of LoopModel.v; the amplitude object is updated block after block, later blocks reading the already updated ones. *)
From Coq Require Import Reals Arith List.
From Verif Require Import RSum IntegralsModel TensorObjs LoopModel CcsdUpdate CholLoops CholModel.
Open Scope R_scope.
(** H.chol as getCholeskyHamiltonian sets it (integrals.py, lines 133-149) *)
Definition chol_of (s : sysd) (L : mat3) : chol :=
  mkChol (chol_blk s L Al Oc Oc) (chol_blk s L Al Oc Un) (chol_blk s L Al Un Oc) (chol_blk s L Al Un Un)
         (chol_blk s L Be Oc Oc) (chol_blk s L Be Oc Un) (chol_blk s L Be Un Oc) (chol_blk s L Be Un Un).
(** ccsd_chol.py, update, lines 67-115; update_t1a lines 138-141, update_t1b lines 164-167, update_t2a lines 207-210, update_t2b lines 271-274,
    update_t2c lines 311-314 *)
Definition chol_iter (d : dims) (nx : nat) (shift : R) (C : chol) (H : ints) (T : amps) : amps :=
  let U1 := set_a T (fst (upd_t1 (noa d) (nua d) (x_a T) (ch_res_a d nx C H T T) (i_a_oo H) (i_a_vv H) shift)) in
  let U2 := set_b U1 (fst (upd_t1 (nob d) (nub d) (x_b U1) (ch_res_b d nx C H T U1) (i_b_oo H) (i_b_vv H) shift)) in
  let U3 := set_aa U2 (fst (upd_t2 (noa d) (nua d) (x_aa U2) (ch_res_aa d nx C H T U2) (i_a_oo H) (i_a_vv H) shift)) in
  let U4 := set_ab U3 (fst (upd_t2b (noa d) (nob d) (nua d) (nub d) (x_ab U3) (ch_res_ab d nx C H T U3) (i_a_oo H) (i_a_vv H) (i_b_oo H) (i_b_vv H) shift)) in
  set_bb U4 (fst (upd_t2 (nob d) (nub d) (x_bb U4) (ch_res_bb d nx C H T U4) (i_b_oo H) (i_b_vv H) shift)).
(** what the update divides by the energy denominators (same lines; the four-term combination is cc_loops2.f90 lines 77 and 143) *)
Definition chol_resid (d : dims) (nx : nat) (C : chol) (H : ints) (T : amps) : amps :=
  mkAmps (ch_res_a d nx C H T T) (ch_res_b d nx C H T T) (four_term (ch_res_aa d nx C H T T)) (ch_res_ab d nx C H T T) (four_term (ch_res_bb d nx C H T T))
         (fun _ _ _ _ _ _ => 0) (fun _ _ _ _ _ _ => 0) (fun _ _ _ _ _ _ => 0) (fun _ _ _ _ _ _ => 0).
(** ccsd_chol.py, update, lines 67-115, flag_RHF = True: T.b = T.a.copy() after the T1a update, T.bb = T.aa.copy() after the T2b update *)
Definition rchol_iter (d : dims) (nx : nat) (shift : R) (C : chol) (H : ints) (T : amps) : amps :=
  let U1 := set_a T (fst (upd_t1 (noa d) (nua d) (x_a T) (cr_res_a d nx C H T T) (i_a_oo H) (i_a_vv H) shift)) in
  let U2 := set_b U1 (x_a U1) in
  let U3 := set_aa U2 (fst (upd_t2 (noa d) (nua d) (x_aa U2) (cr_res_aa d nx C H T U2) (i_a_oo H) (i_a_vv H) shift)) in
  let U4 := set_ab U3 (fst (upd_t2b (noa d) (nob d) (nua d) (nub d) (x_ab U3) (cr_res_ab d nx C H T U3) (i_a_oo H) (i_a_vv H) (i_b_oo H) (i_b_vv H) shift)) in
  set_bb U4 (x_aa U4).
