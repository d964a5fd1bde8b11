(** One iteration with flag_RHF = True (and one CCD iteration with either value of the flag), with the loops of LoopModel.v. *)
From Coq Require Import Reals Arith List.
From Verif Require Import RSum IntegralsModel TensorObjs LoopModel CcsdModel CcsdUpdate EomModel LeftModel RhfModel.
Open Scope R_scope.

(** ccsd.py, update, lines 9-34, flag_RHF = True: T.b = T.a.copy() after the T1a update, T.bb = T.aa.copy() after the T2b update *)
Definition rccsd_iter (d : dims) (shift : R) (H : ints) (T : amps) : amps :=
  let U1 := set_a T (fst (upd_t1 (noa d) (nua d) (x_a T) (rccsd_res_a d H T T) (i_a_oo H) (i_a_vv H) shift)) in
  let U2 := set_b U1 (x_a U1) in
  let U3 := set_aa U2 (fst (upd_t2 (noa d) (nua d) (x_aa U2) (rccsd_res_aa d H T U2) (i_a_oo H) (i_a_vv H) shift)) in
  let U4 := set_ab U3 (fst (upd_t2b (noa d) (nob d) (nua d) (nub d) (x_ab U3) (rccsd_res_ab d H T U3) (i_a_oo H) (i_a_vv H) (i_b_oo H) (i_b_vv H) shift)) in
  set_bb U4 (x_aa U4).
(** ccd.py, update, lines 10-21, flag_RHF = False; update_t2a lines 61-63, update_t2b lines 124-126, update_t2c lines 167-169 *)
Definition ccd_iter (d : dims) (shift : R) (H : ints) (T : amps) : amps :=
  let U1 := set_aa T (fst (upd_t2 (noa d) (nua d) (x_aa T) (ccd_res_aa d H T T) (i_a_oo H) (i_a_vv H) shift)) in
  let U2 := set_ab U1 (fst (upd_t2b (noa d) (nob d) (nua d) (nub d) (x_ab U1) (ccd_res_ab d H T U1) (i_a_oo H) (i_a_vv H) (i_b_oo H) (i_b_vv H) shift)) in
  set_bb U2 (fst (upd_t2 (nob d) (nub d) (x_bb U2) (ccd_res_bb d H T U2) (i_b_oo H) (i_b_vv H) shift)).
(** ... and flag_RHF = True: T.bb = T.aa.copy() *)
Definition rccd_iter (d : dims) (shift : R) (H : ints) (T : amps) : amps :=
  let U1 := set_aa T (fst (upd_t2 (noa d) (nua d) (x_aa T) (rccd_res_aa d H T T) (i_a_oo H) (i_a_vv H) shift)) in
  let U2 := set_ab U1 (fst (upd_t2b (noa d) (nob d) (nua d) (nub d) (x_ab U1) (rccd_res_ab d H T U1) (i_a_oo H) (i_a_vv H) (i_b_oo H) (i_b_vv H) shift)) in
  set_bb U2 (x_aa U2).
(** left_ccsd.py, update, lines 25-32, flag_RHF = True *)
Definition rleft_total (d : dims) (is_ground : bool) (H : ints) (T L : amps) : amps :=
  let LH := rleft_LH d H T L in
  if is_ground then
    mkAmps (fun a i => x_a LH a i + i_a_ov H i a) (fun a i => x_b LH a i + i_b_ov H i a)
           (fun a b i j => x_aa LH a b i j + i_aa_oovv H i j a b) (fun a b i j => x_ab LH a b i j + i_ab_oovv H i j a b)
           (fun a b i j => x_bb LH a b i j + i_bb_oovv H i j a b) (x_aaa LH) (x_aab LH) (x_abb LH) (x_bbb LH)
  else LH.
(** left_ccsd.py, update, lines 34-47, flag_RHF = True: L.b and L.bb are overwritten by L.a and L.aa *)
Definition rleft_iter (d : dims) (omega shift : R) (is_ground : bool) (H : ints) (T L : amps) : amps :=
  let X := rleft_total d is_ground H T L in
  let La := fst (upd_l1 (noa d) (nua d) (x_a L) (x_a X) (i_a_oo H) (i_a_vv H) omega shift) in
  let Laa := fst (upd_l2 (noa d) (nua d) (x_aa L) (x_aa X) (i_a_oo H) (i_a_vv H) omega shift) in
  mkAmps La La Laa
         (fst (upd_l2b (noa d) (nob d) (nua d) (nub d) (x_ab L) (x_ab X) (i_a_oo H) (i_a_vv H) (i_b_oo H) (i_b_vv H) omega shift))
         Laa (x_aaa L) (x_aab L) (x_abb L) (x_bbb L).
