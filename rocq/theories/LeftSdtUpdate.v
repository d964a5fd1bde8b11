(** One pass of the left CCSDT iteration: ccpy/left/left_ccsdt.py, update (lines 6-60), flag_RHF = False, with the triples loops of
    ccpy/lib/fortran/cc_loops2.f90, update_L3. Real numbers for double precision; a division by zero is not modelled (the theorems assume regular
    denominators). *)
From Coq Require Import Reals Arith List Bool.
From Verif Require Import RSum IntegralsModel TensorObjs LoopModel CcsdtUpdate LeftSdtModel LeftSdtProps.
Import ListNotations.
Local Open Scope R_scope.
(** cc_loops2.f90, update_L3, lines 937-1036 (l3a, X3A); lines 1092-1191 (l3d, X3D) are the same with the beta arrays. The copies written to l3a (lines 948-987) and
    the elements written to X3A (lines 990-1030) are, in this order, those of update_t3a_v2, hence copies3 and resid3. The value is read from the
    arrays as the earlier passes left them. *)
Definition upd_l3_body (ho hv : mat2) (omega shift : R) (st : mat6 * mat6) (q : cell) : mat6 * mat6 :=
  let '(i, j, k, a, b, c) := q in
  let denom := - ho i i - ho j j - ho k k + hv a a + hv b b + hv c c in
  let val := omega * fst st a b c i j k - snd st a b c i j k in
  pass6 (a, b, c, i, j, k) (val / (denom - omega + shift)) (copies3 a b c i j k) (resid3 a b c i j k) st.
Definition upd_l3 (no nu : nat) (l X : mat6) (ho hv : mat2) (omega shift : R) : mat6 * mat6 := fold_left (upd_l3_body ho hv omega shift) (loop3 no nu) (l, X).
(** lines 1038-1063 (l3b, X3B) *)
Definition upd_l3b_body (hoa hva hob hvb : mat2) (omega shift : R) (st : mat6 * mat6) (q : cell) : mat6 * mat6 :=
  let '(i, j, k, a, b, c) := q in
  let denom := - hoa i i - hoa j j - hob k k + hva a a + hva b b + hvb c c in
  let val := omega * fst st a b c i j k - snd st a b c i j k in
  pass6 (a, b, c, i, j, k) (val / (denom - omega + shift)) (copies3b a b c i j k) (resid3b a b c i j k) st.
Definition upd_l3b (na nb ma mb : nat) (l X : mat6) (hoa hva hob hvb : mat2) (omega shift : R) : mat6 * mat6 :=
  fold_left (upd_l3b_body hoa hva hob hvb omega shift) (loop3b na nb ma mb) (l, X).
(** lines 1065-1090 (l3c, X3C) *)
Definition upd_l3c_body (hoa hva hob hvb : mat2) (omega shift : R) (st : mat6 * mat6) (q : cell) : mat6 * mat6 :=
  let '(i, j, k, a, b, c) := q in
  let denom := - hoa i i - hob j j - hob k k + hva a a + hvb b b + hvb c c in
  let val := omega * fst st a b c i j k - snd st a b c i j k in
  pass6 (a, b, c, i, j, k) (val / (denom - omega + shift)) (copies3c a b c i j k) (resid3c a b c i j k) st.
Definition upd_l3c (na nb ma mb : nat) (l X : mat6) (hoa hva hob hvb : mat2) (omega shift : R) : mat6 * mat6 :=
  fold_left (upd_l3c_body hoa hva hob hvb omega shift) (loop3c na nb ma mb) (l, X).
(** left_ccsdt.py, update, lines 36-60: the Hamiltonian is added for the ground state only *)
Definition leftt_iter (d : dims) (omega shift : R) (is_ground : bool) (H : ints) (T L : amps) : amps :=
  let X := if is_ground then leftt_total d H T L else leftt_LH d H T L in
  mkAmps (fst (upd_l1 (noa d) (nua d) (x_a L) (x_a X) (i_a_oo H) (i_a_vv H) omega shift))
         (fst (upd_l1 (nob d) (nub d) (x_b L) (x_b X) (i_b_oo H) (i_b_vv H) omega shift))
         (fst (upd_l2 (noa d) (nua d) (x_aa L) (x_aa X) (i_a_oo H) (i_a_vv H) omega shift))
         (fst (upd_l2b (noa d) (nob d) (nua d) (nub d) (x_ab L) (x_ab X) (i_a_oo H) (i_a_vv H) (i_b_oo H) (i_b_vv H) omega shift))
         (fst (upd_l2 (nob d) (nub d) (x_bb L) (x_bb X) (i_b_oo H) (i_b_vv H) omega shift))
         (fst (upd_l3 (noa d) (nua d) (x_aaa L) (x_aaa X) (i_a_oo H) (i_a_vv H) omega shift))
         (fst (upd_l3b (noa d) (nob d) (nua d) (nub d) (x_aab L) (x_aab X) (i_a_oo H) (i_a_vv H) (i_b_oo H) (i_b_vv H) omega shift))
         (fst (upd_l3c (noa d) (nob d) (nua d) (nub d) (x_abb L) (x_abb X) (i_a_oo H) (i_a_vv H) (i_b_oo H) (i_b_vv H) omega shift))
         (fst (upd_l3 (nob d) (nub d) (x_bbb L) (x_bbb X) (i_b_oo H) (i_b_vv H) omega shift)).
