(** Generated by tools/gen_sector.py: reified right and left EA programs (proof support). *)
From Coq Require Import Reals Arith List ZArith.
From Verif Require Import RSum IntegralsModel TensorObjs TensorAlg SectorModel.
Import ListNotations.
Local Open Scope nat_scope.
Definition r_ear_X1A (z a : nat) : ex := (ESum (0 + z) 1 (EMul (ET 0 [a; (0 + z)]) (ET 1 [(0 + z)]))).
Definition r_ear_X1A_1 (z a : nat) : ex := (EAdd (r_ear_X1A (0 + z) a) (EScale (1) 2 (ESum (0 + z) 0 (ESum (1 + z) 1 (ESum (2 + z) 1 (EMul (ET 2 [a; (0 + z); (1 + z); (2 + z)]) (ET 3 [(1 + z); (2 + z); (0 + z)]))))))).
Definition r_ear_X1A_2 (z a : nat) : ex := (EAdd (r_ear_X1A_1 (0 + z) a) (ESum (0 + z) 2 (ESum (1 + z) 1 (ESum (2 + z) 3 (EMul (ET 4 [a; (0 + z); (1 + z); (2 + z)]) (ET 5 [(1 + z); (2 + z); (0 + z)])))))).
Definition r_ear_X1A_3 (z a : nat) : ex := (EAdd (r_ear_X1A_2 (0 + z) a) (ESum (0 + z) 0 (ESum (1 + z) 1 (EMul (ET 6 [(0 + z); (1 + z)]) (ET 3 [a; (1 + z); (0 + z)]))))).
Definition r_ear_X1A_4 (z a : nat) : ex := (EAdd (r_ear_X1A_3 (0 + z) a) (ESum (0 + z) 2 (ESum (1 + z) 3 (EMul (ET 7 [(0 + z); (1 + z)]) (ET 5 [a; (1 + z); (0 + z)]))))).
Definition r_ear_X2A (z a b j : nat) : ex := (EScale (1) 2 (ESum (0 + z) 1 (EMul (ET 8 [b; a; j; (0 + z)]) (ET 1 [(0 + z)])))).
Definition r_ear_X2A_1 (z a b j : nat) : ex := (ESub (r_ear_X2A (0 + z) a b j) (EScale (1) 2 (ESum (0 + z) 0 (EMul (ET 9 [(0 + z); j]) (ET 3 [a; b; (0 + z)]))))).
Definition r_ear_X2A_2 (z a b j : nat) : ex := (EAdd (r_ear_X2A_1 (0 + z) a b j) (EScale (1) 4 (ESum (0 + z) 1 (ESum (1 + z) 1 (EMul (ET 10 [a; b; (0 + z); (1 + z)]) (ET 3 [(0 + z); (1 + z); j])))))).
Definition r_ear_I1 (z m : nat) : ex := (EAdd (EScale (1) 2 (ESum (0 + z) 0 (ESum (1 + z) 1 (ESum (2 + z) 1 (EMul (ET 11 [m; (0 + z); (1 + z); (2 + z)]) (ET 3 [(1 + z); (2 + z); (0 + z)])))))) (ESum (0 + z) 2 (ESum (1 + z) 1 (ESum (2 + z) 3 (EMul (ET 12 [m; (0 + z); (1 + z); (2 + z)]) (ET 5 [(1 + z); (2 + z); (0 + z)])))))).
Definition r_ear_X2A_3 (z a b j : nat) : ex := (ESub (r_ear_X2A_2 (0 + z) a b j) (EScale (1) 2 (ESum (0 + z) 0 (EMul (r_ear_I1 (1 + z) (0 + z)) (ET 13 [a; b; (0 + z); j]))))).
Definition r_ear_X2A_4 (z a b j : nat) : ex := (EAdd (r_ear_X2A_3 (0 + z) a b j) (ESum (0 + z) 1 (EMul (ET 0 [a; (0 + z)]) (ET 3 [(0 + z); b; j])))).
Definition r_ear_X2A_5 (z a b j : nat) : ex := (EAdd (r_ear_X2A_4 (0 + z) a b j) (ESum (0 + z) 0 (ESum (1 + z) 1 (EMul (ET 14 [b; (0 + z); j; (1 + z)]) (ET 3 [a; (1 + z); (0 + z)]))))).
Definition r_ear_X2A_6 (z a b j : nat) : ex := (EAdd (r_ear_X2A_5 (0 + z) a b j) (ESum (0 + z) 2 (ESum (1 + z) 3 (EMul (ET 15 [b; (0 + z); j; (1 + z)]) (ET 5 [a; (1 + z); (0 + z)]))))).
Definition r_ear_X2A_7 (z a b j : nat) : ex := (ESub (r_ear_X2A_6 (0 + z) a b j) (r_ear_X2A_6 (0 + z) b a j)).
Definition r_ear_X2B (z a b j : nat) : ex := (ESum (0 + z) 1 (EMul (ET 16 [a; b; (0 + z); j]) (ET 1 [(0 + z)]))).
Definition r_ear_X2B_1 (z a b j : nat) : ex := (EAdd (r_ear_X2B (0 + z) a b j) (ESum (0 + z) 1 (EMul (ET 0 [a; (0 + z)]) (ET 5 [(0 + z); b; j])))).
Definition r_ear_X2B_2 (z a b j : nat) : ex := (EAdd (r_ear_X2B_1 (0 + z) a b j) (ESum (0 + z) 3 (EMul (ET 17 [b; (0 + z)]) (ET 5 [a; (0 + z); j])))).
Definition r_ear_X2B_3 (z a b j : nat) : ex := (ESub (r_ear_X2B_2 (0 + z) a b j) (ESum (0 + z) 2 (EMul (ET 18 [(0 + z); j]) (ET 5 [a; b; (0 + z)])))).
Definition r_ear_X2B_4 (z a b j : nat) : ex := (EAdd (r_ear_X2B_3 (0 + z) a b j) (ESum (0 + z) 0 (ESum (1 + z) 1 (EMul (ET 19 [(0 + z); b; (1 + z); j]) (ET 3 [a; (1 + z); (0 + z)]))))).
Definition r_ear_X2B_5 (z a b j : nat) : ex := (EAdd (r_ear_X2B_4 (0 + z) a b j) (ESum (0 + z) 2 (ESum (1 + z) 3 (EMul (ET 20 [b; (0 + z); j; (1 + z)]) (ET 5 [a; (1 + z); (0 + z)]))))).
Definition r_ear_X2B_6 (z a b j : nat) : ex := (ESub (r_ear_X2B_5 (0 + z) a b j) (ESum (0 + z) 2 (ESum (1 + z) 1 (EMul (ET 21 [a; (0 + z); (1 + z); j]) (ET 5 [(1 + z); b; (0 + z)]))))).
Definition r_ear_X2B_7 (z a b j : nat) : ex := (EAdd (r_ear_X2B_6 (0 + z) a b j) (ESum (0 + z) 1 (ESum (1 + z) 3 (EMul (ET 22 [a; b; (0 + z); (1 + z)]) (ET 5 [(0 + z); (1 + z); j]))))).
Definition r_ear_I1_1 (z m : nat) : ex := (EAdd (EScale (1) 2 (ESum (0 + z) 0 (ESum (1 + z) 1 (ESum (2 + z) 1 (EMul (ET 11 [m; (0 + z); (1 + z); (2 + z)]) (ET 3 [(1 + z); (2 + z); (0 + z)])))))) (ESum (0 + z) 2 (ESum (1 + z) 1 (ESum (2 + z) 3 (EMul (ET 12 [m; (0 + z); (1 + z); (2 + z)]) (ET 5 [(1 + z); (2 + z); (0 + z)])))))).
Definition r_ear_X2B_8 (z a b j : nat) : ex := (ESub (r_ear_X2B_7 (0 + z) a b j) (ESum (0 + z) 0 (EMul (r_ear_I1_1 (1 + z) (0 + z)) (ET 23 [a; b; (0 + z); j])))).
Definition r_eal_LH_a (z a : nat) : ex := (ESum (0 + z) 1 (EMul (ET 24 [(0 + z)]) (ET 0 [(0 + z); a]))).
Definition r_eal_LH_a_1 (z a : nat) : ex := (EAdd (r_eal_LH_a (0 + z) a) (EScale (1) 2 (ESum (0 + z) 1 (ESum (1 + z) 1 (ESum (2 + z) 0 (EMul (ET 25 [(0 + z); (1 + z); (2 + z)]) (ET 8 [(1 + z); (0 + z); (2 + z); a]))))))).
Definition r_eal_LH_a_2 (z a : nat) : ex := (EAdd (r_eal_LH_a_1 (0 + z) a) (ESum (0 + z) 1 (ESum (1 + z) 3 (ESum (2 + z) 2 (EMul (ET 26 [(0 + z); (1 + z); (2 + z)]) (ET 16 [(0 + z); (1 + z); a; (2 + z)])))))).
Definition r_eal_LH_aa (z a b j : nat) : ex := (EMul (ET 24 [a]) (ET 6 [j; b])).
Definition r_eal_LH_aa_1 (z a b j : nat) : ex := (EAdd (r_eal_LH_aa (0 + z) a b j) (EScale (1) 2 (ESum (0 + z) 1 (EMul (ET 24 [(0 + z)]) (ET 2 [(0 + z); j; a; b]))))).
Definition r_eal_LH_aa_2 (z a b j : nat) : ex := (EAdd (r_eal_LH_aa_1 (0 + z) a b j) (ESum (0 + z) 1 (EMul (ET 25 [(0 + z); b; j]) (ET 0 [(0 + z); a])))).
Definition r_eal_LH_aa_3 (z a b j : nat) : ex := (ESub (r_eal_LH_aa_2 (0 + z) a b j) (EScale (1) 2 (ESum (0 + z) 0 (EMul (ET 25 [a; b; (0 + z)]) (ET 9 [j; (0 + z)]))))).
Definition r_eal_LH_aa_4 (z a b j : nat) : ex := (EAdd (r_eal_LH_aa_3 (0 + z) a b j) (ESum (0 + z) 1 (ESum (1 + z) 0 (EMul (ET 25 [a; (0 + z); (1 + z)]) (ET 14 [(0 + z); j; (1 + z); b]))))).
Definition r_eal_LH_aa_5 (z a b j : nat) : ex := (EAdd (r_eal_LH_aa_4 (0 + z) a b j) (ESum (0 + z) 3 (ESum (1 + z) 2 (EMul (ET 26 [a; (0 + z); (1 + z)]) (ET 19 [j; (0 + z); b; (1 + z)]))))).
Definition r_eal_LH_aa_6 (z a b j : nat) : ex := (EAdd (r_eal_LH_aa_5 (0 + z) a b j) (EScale (1) 4 (ESum (0 + z) 1 (ESum (1 + z) 1 (EMul (ET 25 [(0 + z); (1 + z); j]) (ET 10 [(0 + z); (1 + z); a; b])))))).
Definition r_eal_I1 (z m : nat) : ex := (EAdd (EScale (1) 2 (ESum (0 + z) 1 (ESum (1 + z) 1 (ESum (2 + z) 0 (EMul (ET 25 [(0 + z); (1 + z); (2 + z)]) (ET 13 [(0 + z); (1 + z); m; (2 + z)])))))) (ESum (0 + z) 1 (ESum (1 + z) 3 (ESum (2 + z) 2 (EMul (ET 26 [(0 + z); (1 + z); (2 + z)]) (ET 23 [(0 + z); (1 + z); m; (2 + z)])))))).
Definition r_eal_LH_aa_7 (z a b j : nat) : ex := (ESub (r_eal_LH_aa_6 (0 + z) a b j) (EScale (1) 2 (ESum (0 + z) 0 (EMul (ET 11 [(0 + z); j; a; b]) (r_eal_I1 (1 + z) (0 + z)))))).
Definition r_eal_LH_aa_8 (z a b j : nat) : ex := (ESub (r_eal_LH_aa_7 (0 + z) a b j) (r_eal_LH_aa_7 (0 + z) b a j)).
Definition r_eal_LH_ab (z a b j : nat) : ex := (EMul (ET 24 [a]) (ET 7 [j; b])).
Definition r_eal_LH_ab_1 (z a b j : nat) : ex := (EAdd (r_eal_LH_ab (0 + z) a b j) (ESum (0 + z) 1 (EMul (ET 24 [(0 + z)]) (ET 4 [(0 + z); j; a; b])))).
Definition r_eal_LH_ab_2 (z a b j : nat) : ex := (ESub (r_eal_LH_ab_1 (0 + z) a b j) (ESum (0 + z) 2 (EMul (ET 26 [a; b; (0 + z)]) (ET 18 [j; (0 + z)])))).
Definition r_eal_LH_ab_3 (z a b j : nat) : ex := (EAdd (r_eal_LH_ab_2 (0 + z) a b j) (ESum (0 + z) 3 (EMul (ET 26 [a; (0 + z); j]) (ET 17 [(0 + z); b])))).
Definition r_eal_LH_ab_4 (z a b j : nat) : ex := (EAdd (r_eal_LH_ab_3 (0 + z) a b j) (ESum (0 + z) 1 (EMul (ET 26 [(0 + z); b; j]) (ET 0 [(0 + z); a])))).
Definition r_eal_LH_ab_5 (z a b j : nat) : ex := (EAdd (r_eal_LH_ab_4 (0 + z) a b j) (ESum (0 + z) 1 (ESum (1 + z) 0 (EMul (ET 25 [a; (0 + z); (1 + z)]) (ET 15 [(0 + z); j; (1 + z); b]))))).
Definition r_eal_LH_ab_6 (z a b j : nat) : ex := (EAdd (r_eal_LH_ab_5 (0 + z) a b j) (ESum (0 + z) 3 (ESum (1 + z) 2 (EMul (ET 26 [a; (0 + z); (1 + z)]) (ET 20 [(0 + z); j; (1 + z); b]))))).
Definition r_eal_LH_ab_7 (z a b j : nat) : ex := (ESub (r_eal_LH_ab_6 (0 + z) a b j) (ESum (0 + z) 1 (ESum (1 + z) 2 (EMul (ET 26 [(0 + z); b; (1 + z)]) (ET 21 [(0 + z); j; a; (1 + z)]))))).
Definition r_eal_LH_ab_8 (z a b j : nat) : ex := (EAdd (r_eal_LH_ab_7 (0 + z) a b j) (ESum (0 + z) 1 (ESum (1 + z) 3 (EMul (ET 26 [(0 + z); (1 + z); j]) (ET 22 [(0 + z); (1 + z); a; b]))))).
Definition r_eal_I1_1 (z m : nat) : ex := (EAdd (EScale (1) 2 (ESum (0 + z) 1 (ESum (1 + z) 1 (ESum (2 + z) 0 (EMul (ET 25 [(0 + z); (1 + z); (2 + z)]) (ET 13 [(0 + z); (1 + z); m; (2 + z)])))))) (ESum (0 + z) 1 (ESum (1 + z) 3 (ESum (2 + z) 2 (EMul (ET 26 [(0 + z); (1 + z); (2 + z)]) (ET 23 [(0 + z); (1 + z); m; (2 + z)])))))).
Definition r_eal_LH_ab_9 (z a b j : nat) : ex := (ESub (r_eal_LH_ab_8 (0 + z) a b j) (ESum (0 + z) 0 (EMul (ET 12 [(0 + z); j; a; b]) (r_eal_I1_1 (1 + z) (0 + z))))).
Definition r_ea_lhs (z : nat) : ex := (EAdd (EAdd (ESum (0 + z) 1 (EMul (ET 24 [(0 + z)]) (r_ear_X1A_4 (1 + z) (0 + z)))) (EScale (1) 2 (ESum (0 + z) 1 (ESum (1 + z) 1 (ESum (2 + z) 0 (EMul (ET 25 [(0 + z); (1 + z); (2 + z)]) (r_ear_X2A_7 (3 + z) (0 + z) (1 + z) (2 + z)))))))) (ESum (0 + z) 1 (ESum (1 + z) 3 (ESum (2 + z) 2 (EMul (ET 26 [(0 + z); (1 + z); (2 + z)]) (r_ear_X2B_8 (3 + z) (0 + z) (1 + z) (2 + z))))))).
Definition r_ea_rhs (z : nat) : ex := (EAdd (EAdd (ESum (0 + z) 1 (EMul (r_eal_LH_a_2 (1 + z) (0 + z)) (ET 1 [(0 + z)]))) (EScale (1) 2 (ESum (0 + z) 1 (ESum (1 + z) 1 (ESum (2 + z) 0 (EMul (r_eal_LH_aa_8 (3 + z) (0 + z) (1 + z) (2 + z)) (ET 3 [(0 + z); (1 + z); (2 + z)]))))))) (ESum (0 + z) 1 (ESum (1 + z) 3 (ESum (2 + z) 2 (EMul (r_eal_LH_ab_9 (3 + z) (0 + z) (1 + z) (2 + z)) (ET 5 [(0 + z); (1 + z); (2 + z)])))))).
Definition ealr_arrays (d : dims) (H : ints) (T : amps) (L R : eav) := [ap2 (i_a_vv H);
  ap1 (ea_a R);
  ap4 (i_aa_vovv H);
  ap3 (ea_aa R);
  ap4 (i_ab_vovv H);
  ap3 (ea_ab R);
  ap2 (i_a_ov H);
  ap2 (i_b_ov H);
  ap4 (i_aa_vvov H);
  ap2 (i_a_oo H);
  ap4 (i_aa_vvvv H);
  ap4 (i_aa_oovv H);
  ap4 (i_ab_oovv H);
  ap4 (x_aa T);
  ap4 (i_aa_voov H);
  ap4 (i_ab_voov H);
  ap4 (i_ab_vvvo H);
  ap2 (i_b_vv H);
  ap2 (i_b_oo H);
  ap4 (i_ab_ovvo H);
  ap4 (i_bb_voov H);
  ap4 (i_ab_vovo H);
  ap4 (i_ab_vvvv H);
  ap4 (x_ab T);
  ap1 (ea_a L);
  ap3 (ea_aa L);
  ap3 (ea_ab L);
  ap4 (i_aa_ovvv H);
  ap4 (i_aa_vvvo H);
  ap4 (i_aa_ovov H);
  ap4 (i_aa_vovo H);
  ap4 (i_bb_ovov H);
  ap4 (i_bb_vovo H);
  ap4 (i_aa_ovvo H);
  ap4 (i_bb_ovvo H)].
Definition ealr_gens : list (nat * (nat * list nat * bool)) := [(2, (27, [1; 0; 2; 3], false));
  (2, (2, [0; 1; 3; 2], false));
  (3, (3, [1; 0; 2], false));
  (8, (8, [1; 0; 2; 3], false));
  (8, (28, [0; 1; 3; 2], false));
  (10, (10, [1; 0; 2; 3], false));
  (10, (10, [0; 1; 3; 2], false));
  (11, (11, [1; 0; 2; 3], false));
  (11, (11, [0; 1; 3; 2], false));
  (13, (13, [1; 0; 2; 3], false));
  (13, (13, [0; 1; 3; 2], false));
  (14, (29, [1; 0; 2; 3], false));
  (14, (30, [0; 1; 3; 2], false));
  (20, (31, [1; 0; 2; 3], false));
  (20, (32, [0; 1; 3; 2], false));
  (25, (25, [1; 0; 2], false));
  (27, (2, [1; 0; 2; 3], false));
  (27, (27, [0; 1; 3; 2], false));
  (28, (28, [1; 0; 2; 3], false));
  (28, (8, [0; 1; 3; 2], false));
  (29, (14, [1; 0; 2; 3], false));
  (29, (33, [0; 1; 3; 2], false));
  (30, (33, [1; 0; 2; 3], false));
  (30, (14, [0; 1; 3; 2], false));
  (31, (20, [1; 0; 2; 3], false));
  (31, (34, [0; 1; 3; 2], false));
  (32, (34, [1; 0; 2; 3], false));
  (32, (20, [0; 1; 3; 2], false));
  (33, (30, [1; 0; 2; 3], false));
  (33, (29, [0; 1; 3; 2], false));
  (34, (32, [1; 0; 2; 3], false));
  (34, (31, [0; 1; 3; 2], false))].
Definition ealr_tab := Eval vm_compute in symtab ealr_gens 35.
