(** Generated by tools/genfock.py: the arrays of the program (blocks of the Hamiltonian, amplitudes, delta) as a numbered list with their permutational
    symmetries, for the checker of FockWick.v (proof support), and the arrays that belong to a Hamiltonian in second quantisation. *)
From Coq Require Import Reals Arith List.
From Verif Require Import RSum IntegralsModel TensorObjs TensorAlg TensorSpec FockSpec.
Import ListNotations.
Local Open Scope R_scope.

Definition fock_arrays (H : ints) (T : amps) : list (list nat -> R) :=
  [ap2 (x_a T); ap2 (x_b T); ap4 (x_aa T); ap4 (x_ab T);
   ap4 (x_bb T); ap6 (x_aaa T); ap6 (x_aab T); ap6 (x_abb T);
   ap6 (x_bbb T); ap2 (i_a_oo H); ap2 (i_a_ov H); ap2 (i_a_vo H);
   ap2 (i_a_vv H); ap2 (i_b_oo H); ap2 (i_b_ov H); ap2 (i_b_vo H);
   ap2 (i_b_vv H); ap4 (i_aa_oooo H); ap4 (i_aa_ooov H); ap4 (i_aa_oovo H);
   ap4 (i_aa_oovv H); ap4 (i_aa_ovoo H); ap4 (i_aa_ovov H); ap4 (i_aa_ovvo H);
   ap4 (i_aa_ovvv H); ap4 (i_aa_vooo H); ap4 (i_aa_voov H); ap4 (i_aa_vovo H);
   ap4 (i_aa_vovv H); ap4 (i_aa_vvoo H); ap4 (i_aa_vvov H); ap4 (i_aa_vvvo H);
   ap4 (i_aa_vvvv H); ap4 (i_ab_oooo H); ap4 (i_ab_ooov H); ap4 (i_ab_oovo H);
   ap4 (i_ab_oovv H); ap4 (i_ab_ovoo H); ap4 (i_ab_ovov H); ap4 (i_ab_ovvo H);
   ap4 (i_ab_ovvv H); ap4 (i_ab_vooo H); ap4 (i_ab_voov H); ap4 (i_ab_vovo H);
   ap4 (i_ab_vovv H); ap4 (i_ab_vvoo H); ap4 (i_ab_vvov H); ap4 (i_ab_vvvo H);
   ap4 (i_ab_vvvv H); ap4 (i_bb_oooo H); ap4 (i_bb_ooov H); ap4 (i_bb_oovo H);
   ap4 (i_bb_oovv H); ap4 (i_bb_ovoo H); ap4 (i_bb_ovov H); ap4 (i_bb_ovvo H);
   ap4 (i_bb_ovvv H); ap4 (i_bb_vooo H); ap4 (i_bb_voov H); ap4 (i_bb_vovo H);
   ap4 (i_bb_vovv H); ap4 (i_bb_vvoo H); ap4 (i_bb_vvov H); ap4 (i_bb_vvvo H);
   ap4 (i_bb_vvvv H); ap2 delta].
Local Open Scope nat_scope.
Definition fock_gens : list (nat * (nat * list nat * bool)) :=
  [(17, (17, [1; 0; 2; 3], false)); (17, (17, [0; 1; 3; 2], false)); (18, (18, [1; 0; 2; 3], false)); (18, (19, [0; 1; 3; 2], false)); (19, (19, [1; 0; 2; 3], false));
   (19, (18, [0; 1; 3; 2], false)); (20, (20, [1; 0; 2; 3], false)); (20, (20, [0; 1; 3; 2], false)); (21, (25, [1; 0; 2; 3], false)); (21, (21, [0; 1; 3; 2], false));
   (22, (26, [1; 0; 2; 3], false)); (22, (23, [0; 1; 3; 2], false)); (23, (27, [1; 0; 2; 3], false)); (23, (22, [0; 1; 3; 2], false)); (24, (28, [1; 0; 2; 3], false));
   (24, (24, [0; 1; 3; 2], false)); (25, (21, [1; 0; 2; 3], false)); (25, (25, [0; 1; 3; 2], false)); (26, (22, [1; 0; 2; 3], false)); (26, (27, [0; 1; 3; 2], false));
   (27, (23, [1; 0; 2; 3], false)); (27, (26, [0; 1; 3; 2], false)); (28, (24, [1; 0; 2; 3], false)); (28, (28, [0; 1; 3; 2], false)); (29, (29, [1; 0; 2; 3], false));
   (29, (29, [0; 1; 3; 2], false)); (30, (30, [1; 0; 2; 3], false)); (30, (31, [0; 1; 3; 2], false)); (31, (31, [1; 0; 2; 3], false)); (31, (30, [0; 1; 3; 2], false));
   (32, (32, [1; 0; 2; 3], false)); (32, (32, [0; 1; 3; 2], false)); (49, (49, [1; 0; 2; 3], false)); (49, (49, [0; 1; 3; 2], false)); (50, (50, [1; 0; 2; 3], false));
   (50, (51, [0; 1; 3; 2], false)); (51, (51, [1; 0; 2; 3], false)); (51, (50, [0; 1; 3; 2], false)); (52, (52, [1; 0; 2; 3], false)); (52, (52, [0; 1; 3; 2], false));
   (53, (57, [1; 0; 2; 3], false)); (53, (53, [0; 1; 3; 2], false)); (54, (58, [1; 0; 2; 3], false)); (54, (55, [0; 1; 3; 2], false)); (55, (59, [1; 0; 2; 3], false));
   (55, (54, [0; 1; 3; 2], false)); (56, (60, [1; 0; 2; 3], false)); (56, (56, [0; 1; 3; 2], false)); (57, (53, [1; 0; 2; 3], false)); (57, (57, [0; 1; 3; 2], false));
   (58, (54, [1; 0; 2; 3], false)); (58, (59, [0; 1; 3; 2], false)); (59, (55, [1; 0; 2; 3], false)); (59, (58, [0; 1; 3; 2], false)); (60, (56, [1; 0; 2; 3], false));
   (60, (60, [0; 1; 3; 2], false)); (61, (61, [1; 0; 2; 3], false)); (61, (61, [0; 1; 3; 2], false)); (62, (62, [1; 0; 2; 3], false)); (62, (63, [0; 1; 3; 2], false));
   (63, (63, [1; 0; 2; 3], false)); (63, (62, [0; 1; 3; 2], false)); (64, (64, [1; 0; 2; 3], false)); (64, (64, [0; 1; 3; 2], false)); (2, (2, [1; 0; 2; 3], false));
   (2, (2, [0; 1; 3; 2], false)); (4, (4, [1; 0; 2; 3], false)); (4, (4, [0; 1; 3; 2], false))].
Definition fock_tab := Eval vm_compute in symtab fock_gens 66.
Definition kdelta : nat := 65.
Local Open Scope R_scope.

