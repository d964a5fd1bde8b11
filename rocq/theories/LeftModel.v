(** Left CCSD iteration: ccpy/left/left_ccsd.py, update (lines 5-49), flag_RHF = False, with the loops of LoopModel.v; and get_r0 of
    ccpy/energy/cc_energy.py. *)
From Coq Require Import Reals Arith List.
From Verif Require Import RSum IntegralsModel TensorObjs LoopModel EomModel CcsdUpdate.
Open Scope R_scope.
(** left_ccsd.py, update, lines 25-32: the Hamiltonian is added for the ground state only *)
Definition left_total (d : dims) (is_ground : bool) (H : ints) (T L : amps) : amps :=
  let LH := left_LH d H T L in
  if is_ground then
    mkAmps (fun a i => x_a LH a i + i_a_ov H i a) (fun a i => x_b LH a i + i_b_ov H i a)
           (fun a b i j => x_aa LH a b i j + i_aa_oovv H i j a b) (fun a b i j => x_ab LH a b i j + i_ab_oovv H i j a b)
           (fun a b i j => x_bb LH a b i j + i_bb_oovv H i j a b) (x_aaa LH) (x_aab LH) (x_abb LH) (x_bbb LH)
  else LH.
(** left_ccsd.py, update, lines 34-41 *)
Definition left_iter (d : dims) (omega shift : R) (is_ground : bool) (H : ints) (T L : amps) : amps :=
  let X := left_total d is_ground H T L in
  mkAmps (fst (upd_l1 (noa d) (nua d) (x_a L) (x_a X) (i_a_oo H) (i_a_vv H) omega shift))
         (fst (upd_l1 (nob d) (nub d) (x_b L) (x_b X) (i_b_oo H) (i_b_vv H) omega shift))
         (fst (upd_l2 (noa d) (nua d) (x_aa L) (x_aa X) (i_a_oo H) (i_a_vv H) omega shift))
         (fst (upd_l2b (noa d) (nob d) (nua d) (nub d) (x_ab L) (x_ab X) (i_a_oo H) (i_a_vv H) (i_b_oo H) (i_b_vv H) omega shift))
         (fst (upd_l2 (nob d) (nub d) (x_bb L) (x_bb X) (i_b_oo H) (i_b_vv H) omega shift))
         (x_aaa L) (x_aab L) (x_abb L) (x_bbb L).
(** cc_energy.py, get_r0, lines 62-71 *)
Definition r0_sum (d : dims) (H : ints) (Y : amps) : R :=
  sumn (noa d) (fun m => sumn (nua d) (fun e => i_a_ov H m e * x_a Y e m))
  + sumn (nob d) (fun m => sumn (nub d) (fun e => i_b_ov H m e * x_b Y e m))
  + 1 / 4 * sumn (noa d) (fun m => sumn (noa d) (fun n => sumn (nua d) (fun e => sumn (nua d) (fun f => i_aa_oovv H m n e f * x_aa Y e f m n))))
  + sumn (noa d) (fun m => sumn (nob d) (fun n => sumn (nua d) (fun e => sumn (nub d) (fun f => i_ab_oovv H m n e f * x_ab Y e f m n))))
  + 1 / 4 * sumn (nob d) (fun m => sumn (nob d) (fun n => sumn (nub d) (fun e => sumn (nub d) (fun f => i_bb_oovv H m n e f * x_bb Y e f m n)))).
Definition get_r0 (d : dims) (H : ints) (Y : amps) (omega : R) : R := r0_sum d H Y / omega.
