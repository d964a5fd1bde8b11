(** One CCSD iteration: ccpy/cc/ccsd.py, update (lines 9-34), flag_RHF = False.  The arrays handed to the Fortran update loops are those of CcsdModel.v,
    the loops those of LoopModel.v; the amplitude object is updated block after block, later blocks reading the already updated ones. *)
From Coq Require Import Reals Arith List.
From Verif Require Import RSum IntegralsModel TensorObjs LoopModel CcsdModel.
Open Scope R_scope.
Definition set_a (T : amps) (f : mat2) : amps := mkAmps f (x_b T) (x_aa T) (x_ab T) (x_bb T) (x_aaa T) (x_aab T) (x_abb T) (x_bbb T).
Definition set_b (T : amps) (f : mat2) : amps := mkAmps (x_a T) f (x_aa T) (x_ab T) (x_bb T) (x_aaa T) (x_aab T) (x_abb T) (x_bbb T).
Definition set_aa (T : amps) (f : mat4) : amps := mkAmps (x_a T) (x_b T) f (x_ab T) (x_bb T) (x_aaa T) (x_aab T) (x_abb T) (x_bbb T).
Definition set_ab (T : amps) (f : mat4) : amps := mkAmps (x_a T) (x_b T) (x_aa T) f (x_bb T) (x_aaa T) (x_aab T) (x_abb T) (x_bbb T).
Definition set_bb (T : amps) (f : mat4) : amps := mkAmps (x_a T) (x_b T) (x_aa T) (x_ab T) f (x_aaa T) (x_aab T) (x_abb T) (x_bbb T).

(** ccsd.py, update, lines 9-34; update_t1a lines 50-52, update_t1b lines 71-73, update_t2a lines 103-105, update_t2b lines 148-150, update_t2c lines 180-182 *)
Definition ccsd_iter (d : dims) (shift : R) (H : ints) (T : amps) : amps :=
  let U1 := set_a T (fst (upd_t1 (noa d) (nua d) (x_a T) (ccsd_res_a d H T T) (i_a_oo H) (i_a_vv H) shift)) in
  let U2 := set_b U1 (fst (upd_t1 (nob d) (nub d) (x_b U1) (ccsd_res_b d H T U1) (i_b_oo H) (i_b_vv H) shift)) in
  let U3 := set_aa U2 (fst (upd_t2 (noa d) (nua d) (x_aa U2) (ccsd_res_aa d H T U2) (i_a_oo H) (i_a_vv H) shift)) in
  let U4 := set_ab U3 (fst (upd_t2b (noa d) (nob d) (nua d) (nub d) (x_ab U3) (ccsd_res_ab d H T U3) (i_a_oo H) (i_a_vv H) (i_b_oo H) (i_b_vv H) shift)) in
  set_bb U4 (fst (upd_t2 (nob d) (nub d) (x_bb U4) (ccsd_res_bb d H T U4) (i_b_oo H) (i_b_vv H) shift)).

(** The residual of the amplitude equations: what the update divides by the energy denominators (ccsd.py lines 50-52, 71-73, 103-105, 148-150, 180-182;
    the four-term combination is cc_loops2.f90 lines 77 and 143) *)
Definition four_term (X : mat4) : mat4 := fun a b i j => X a b i j - X b a i j - X a b j i + X b a j i.
Definition ccsd_resid (d : dims) (H : ints) (T : amps) : amps :=
  mkAmps (ccsd_res_a d H T T) (ccsd_res_b d H T T) (four_term (ccsd_res_aa d H T T)) (ccsd_res_ab d H T T) (four_term (ccsd_res_bb d H T T))
         (fun _ _ _ _ _ _ => 0) (fun _ _ _ _ _ _ => 0) (fun _ _ _ _ _ _ => 0) (fun _ _ _ _ _ _ => 0).
