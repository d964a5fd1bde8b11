(** Generated by tools/gen_sector.py: reified right and left IP programs (proof support). *)
From Coq Require Import Reals Arith List ZArith.
From Verif Require Import RSum IntegralsModel TensorObjs TensorAlg SectorModel.
Import ListNotations.
Local Open Scope nat_scope.
Definition r_ipr_X1A (z i : nat) : ex := (ESub (EC (0) 1) (ESum (0 + z) 0 (EMul (ET 0 [(0 + z); i]) (ET 1 [(0 + z)])))).
Definition r_ipr_X1A_1 (z i : nat) : ex := (ESub (r_ipr_X1A (0 + z) i) (EScale (1) 2 (ESum (0 + z) 0 (ESum (1 + z) 0 (ESum (2 + z) 1 (EMul (ET 2 [(0 + z); (1 + z); i; (2 + z)]) (ET 3 [(0 + z); (2 + z); (1 + z)]))))))).
Definition r_ipr_X1A_2 (z i : nat) : ex := (ESub (r_ipr_X1A_1 (0 + z) i) (ESum (0 + z) 0 (ESum (1 + z) 2 (ESum (2 + z) 3 (EMul (ET 4 [(0 + z); (1 + z); i; (2 + z)]) (ET 5 [(0 + z); (2 + z); (1 + z)])))))).
Definition r_ipr_X1A_3 (z i : nat) : ex := (EAdd (r_ipr_X1A_2 (0 + z) i) (ESum (0 + z) 0 (ESum (1 + z) 1 (EMul (ET 6 [(0 + z); (1 + z)]) (ET 3 [i; (1 + z); (0 + z)]))))).
Definition r_ipr_X1A_4 (z i : nat) : ex := (EAdd (r_ipr_X1A_3 (0 + z) i) (ESum (0 + z) 2 (ESum (1 + z) 3 (EMul (ET 7 [(0 + z); (1 + z)]) (ET 5 [i; (1 + z); (0 + z)]))))).
Definition r_ipr_X2A (z i b j : nat) : ex := (EScale (-1) 2 (ESum (0 + z) 0 (EMul (ET 8 [b; (0 + z); j; i]) (ET 1 [(0 + z)])))).
Definition r_ipr_X2A_1 (z i b j : nat) : ex := (EAdd (r_ipr_X2A (0 + z) i b j) (EScale (1) 2 (ESum (0 + z) 1 (EMul (ET 9 [b; (0 + z)]) (ET 3 [i; (0 + z); j]))))).
Definition r_ipr_X2A_2 (z i b j : nat) : ex := (EAdd (r_ipr_X2A_1 (0 + z) i b j) (EScale (1) 4 (ESum (0 + z) 0 (ESum (1 + z) 0 (EMul (ET 10 [(0 + z); (1 + z); i; j]) (ET 3 [(0 + z); b; (1 + z)])))))).
Definition r_ipr_I1 (z e : nat) : ex := (ESub (EScale (-1) 2 (ESum (0 + z) 0 (ESum (1 + z) 0 (ESum (2 + z) 1 (EMul (ET 11 [(0 + z); (1 + z); e; (2 + z)]) (ET 3 [(0 + z); (2 + z); (1 + z)])))))) (ESum (0 + z) 0 (ESum (1 + z) 2 (ESum (2 + z) 3 (EMul (ET 12 [(0 + z); (1 + z); e; (2 + z)]) (ET 5 [(0 + z); (2 + z); (1 + z)])))))).
Definition r_ipr_X2A_3 (z i b j : nat) : ex := (EAdd (r_ipr_X2A_2 (0 + z) i b j) (EScale (1) 2 (ESum (0 + z) 1 (EMul (r_ipr_I1 (1 + z) (0 + z)) (ET 13 [(0 + z); b; i; j]))))).
Definition r_ipr_X2A_4 (z i b j : nat) : ex := (ESub (r_ipr_X2A_3 (0 + z) i b j) (ESum (0 + z) 0 (EMul (ET 0 [(0 + z); i]) (ET 3 [(0 + z); b; j])))).
Definition r_ipr_X2A_5 (z i b j : nat) : ex := (EAdd (r_ipr_X2A_4 (0 + z) i b j) (ESum (0 + z) 0 (ESum (1 + z) 1 (EMul (ET 14 [b; (0 + z); j; (1 + z)]) (ET 3 [i; (1 + z); (0 + z)]))))).
Definition r_ipr_X2A_6 (z i b j : nat) : ex := (EAdd (r_ipr_X2A_5 (0 + z) i b j) (ESum (0 + z) 2 (ESum (1 + z) 3 (EMul (ET 15 [b; (0 + z); j; (1 + z)]) (ET 5 [i; (1 + z); (0 + z)]))))).
Definition r_ipr_X2A_7 (z i b j : nat) : ex := (ESub (r_ipr_X2A_6 (0 + z) i b j) (r_ipr_X2A_6 (0 + z) j b i)).
Definition r_ipr_X2B (z i b j : nat) : ex := (EScale (-1) 1 (ESum (0 + z) 0 (EMul (ET 16 [(0 + z); b; i; j]) (ET 1 [(0 + z)])))).
Definition r_ipr_X2B_1 (z i b j : nat) : ex := (ESub (r_ipr_X2B (0 + z) i b j) (ESum (0 + z) 0 (EMul (ET 0 [(0 + z); i]) (ET 5 [(0 + z); b; j])))).
Definition r_ipr_X2B_2 (z i b j : nat) : ex := (ESub (r_ipr_X2B_1 (0 + z) i b j) (ESum (0 + z) 2 (EMul (ET 17 [(0 + z); j]) (ET 5 [i; b; (0 + z)])))).
Definition r_ipr_X2B_3 (z i b j : nat) : ex := (EAdd (r_ipr_X2B_2 (0 + z) i b j) (ESum (0 + z) 3 (EMul (ET 18 [b; (0 + z)]) (ET 5 [i; (0 + z); j])))).
Definition r_ipr_X2B_4 (z i b j : nat) : ex := (EAdd (r_ipr_X2B_3 (0 + z) i b j) (ESum (0 + z) 0 (ESum (1 + z) 2 (EMul (ET 19 [(0 + z); (1 + z); i; j]) (ET 5 [(0 + z); b; (1 + z)]))))).
Definition r_ipr_X2B_5 (z i b j : nat) : ex := (EAdd (r_ipr_X2B_4 (0 + z) i b j) (ESum (0 + z) 0 (ESum (1 + z) 1 (EMul (ET 20 [(0 + z); b; (1 + z); j]) (ET 3 [i; (1 + z); (0 + z)]))))).
Definition r_ipr_X2B_6 (z i b j : nat) : ex := (EAdd (r_ipr_X2B_5 (0 + z) i b j) (ESum (0 + z) 2 (ESum (1 + z) 3 (EMul (ET 21 [b; (0 + z); j; (1 + z)]) (ET 5 [i; (1 + z); (0 + z)]))))).
Definition r_ipr_X2B_7 (z i b j : nat) : ex := (ESub (r_ipr_X2B_6 (0 + z) i b j) (ESum (0 + z) 0 (ESum (1 + z) 3 (EMul (ET 22 [(0 + z); b; i; (1 + z)]) (ET 5 [(0 + z); (1 + z); j]))))).
Definition r_ipr_I1_1 (z e : nat) : ex := (ESub (EScale (-1) 2 (ESum (0 + z) 0 (ESum (1 + z) 0 (ESum (2 + z) 1 (EMul (ET 11 [(0 + z); (1 + z); e; (2 + z)]) (ET 3 [(0 + z); (2 + z); (1 + z)])))))) (ESum (0 + z) 0 (ESum (1 + z) 2 (ESum (2 + z) 3 (EMul (ET 12 [(0 + z); (1 + z); e; (2 + z)]) (ET 5 [(0 + z); (2 + z); (1 + z)])))))).
Definition r_ipr_X2B_8 (z i b j : nat) : ex := (EAdd (r_ipr_X2B_7 (0 + z) i b j) (ESum (0 + z) 1 (EMul (r_ipr_I1_1 (1 + z) (0 + z)) (ET 23 [(0 + z); b; i; j])))).
Definition r_ipl_LH_a (z i : nat) : ex := (EScale (-1) 1 (ESum (0 + z) 0 (EMul (ET 24 [(0 + z)]) (ET 0 [i; (0 + z)])))).
Definition r_ipl_LH_a_1 (z i : nat) : ex := (ESub (r_ipl_LH_a (0 + z) i) (EScale (1) 2 (ESum (0 + z) 0 (ESum (1 + z) 1 (ESum (2 + z) 0 (EMul (ET 25 [(0 + z); (1 + z); (2 + z)]) (ET 8 [(1 + z); i; (2 + z); (0 + z)]))))))).
Definition r_ipl_LH_a_2 (z i : nat) : ex := (ESub (r_ipl_LH_a_1 (0 + z) i) (ESum (0 + z) 0 (ESum (1 + z) 3 (ESum (2 + z) 2 (EMul (ET 26 [(0 + z); (1 + z); (2 + z)]) (ET 16 [i; (1 + z); (0 + z); (2 + z)])))))).
Definition r_ipl_LH_aa (z i b j : nat) : ex := (EMul (ET 24 [i]) (ET 6 [j; b])).
Definition r_ipl_LH_aa_1 (z i b j : nat) : ex := (ESub (r_ipl_LH_aa (0 + z) i b j) (EScale (1) 2 (ESum (0 + z) 0 (EMul (ET 24 [(0 + z)]) (ET 2 [i; j; (0 + z); b]))))).
Definition r_ipl_LH_aa_2 (z i b j : nat) : ex := (EAdd (r_ipl_LH_aa_1 (0 + z) i b j) (EScale (1) 2 (ESum (0 + z) 1 (EMul (ET 25 [i; (0 + z); j]) (ET 9 [(0 + z); b]))))).
Definition r_ipl_LH_aa_3 (z i b j : nat) : ex := (ESub (r_ipl_LH_aa_2 (0 + z) i b j) (ESum (0 + z) 0 (EMul (ET 25 [i; b; (0 + z)]) (ET 0 [j; (0 + z)])))).
Definition r_ipl_LH_aa_4 (z i b j : nat) : ex := (EAdd (r_ipl_LH_aa_3 (0 + z) i b j) (EScale (1) 4 (ESum (0 + z) 0 (ESum (1 + z) 0 (EMul (ET 25 [(0 + z); b; (1 + z)]) (ET 10 [i; j; (0 + z); (1 + z)])))))).
Definition r_ipl_LH_aa_5 (z i b j : nat) : ex := (EAdd (r_ipl_LH_aa_4 (0 + z) i b j) (ESum (0 + z) 1 (ESum (1 + z) 0 (EMul (ET 25 [i; (0 + z); (1 + z)]) (ET 14 [(0 + z); j; (1 + z); b]))))).
Definition r_ipl_LH_aa_6 (z i b j : nat) : ex := (EAdd (r_ipl_LH_aa_5 (0 + z) i b j) (ESum (0 + z) 3 (ESum (1 + z) 2 (EMul (ET 26 [i; (0 + z); (1 + z)]) (ET 20 [j; (0 + z); b; (1 + z)]))))).
Definition r_ipl_I1 (z e : nat) : ex := (ESub (EScale (-1) 2 (ESum (0 + z) 0 (ESum (1 + z) 1 (ESum (2 + z) 0 (EMul (ET 25 [(0 + z); (1 + z); (2 + z)]) (ET 13 [e; (1 + z); (0 + z); (2 + z)])))))) (ESum (0 + z) 0 (ESum (1 + z) 3 (ESum (2 + z) 2 (EMul (ET 26 [(0 + z); (1 + z); (2 + z)]) (ET 23 [e; (1 + z); (0 + z); (2 + z)])))))).
Definition r_ipl_LH_aa_7 (z i b j : nat) : ex := (EAdd (r_ipl_LH_aa_6 (0 + z) i b j) (EScale (1) 2 (ESum (0 + z) 1 (EMul (r_ipl_I1 (1 + z) (0 + z)) (ET 11 [i; j; (0 + z); b]))))).
Definition r_ipl_LH_aa_8 (z i b j : nat) : ex := (ESub (r_ipl_LH_aa_7 (0 + z) i b j) (r_ipl_LH_aa_7 (0 + z) j b i)).
Definition r_ipl_LH_ab (z i b j : nat) : ex := (EMul (ET 24 [i]) (ET 7 [j; b])).
Definition r_ipl_LH_ab_1 (z i b j : nat) : ex := (ESub (r_ipl_LH_ab (0 + z) i b j) (ESum (0 + z) 0 (EMul (ET 24 [(0 + z)]) (ET 4 [i; j; (0 + z); b])))).
Definition r_ipl_LH_ab_2 (z i b j : nat) : ex := (ESub (r_ipl_LH_ab_1 (0 + z) i b j) (ESum (0 + z) 2 (EMul (ET 26 [i; b; (0 + z)]) (ET 17 [j; (0 + z)])))).
Definition r_ipl_LH_ab_3 (z i b j : nat) : ex := (ESub (r_ipl_LH_ab_2 (0 + z) i b j) (ESum (0 + z) 0 (EMul (ET 26 [(0 + z); b; j]) (ET 0 [i; (0 + z)])))).
Definition r_ipl_LH_ab_4 (z i b j : nat) : ex := (EAdd (r_ipl_LH_ab_3 (0 + z) i b j) (ESum (0 + z) 3 (EMul (ET 26 [i; (0 + z); j]) (ET 18 [(0 + z); b])))).
Definition r_ipl_LH_ab_5 (z i b j : nat) : ex := (EAdd (r_ipl_LH_ab_4 (0 + z) i b j) (ESum (0 + z) 0 (ESum (1 + z) 2 (EMul (ET 26 [(0 + z); b; (1 + z)]) (ET 19 [i; j; (0 + z); (1 + z)]))))).
Definition r_ipl_LH_ab_6 (z i b j : nat) : ex := (EAdd (r_ipl_LH_ab_5 (0 + z) i b j) (ESum (0 + z) 1 (ESum (1 + z) 0 (EMul (ET 25 [i; (0 + z); (1 + z)]) (ET 15 [(0 + z); j; (1 + z); b]))))).
Definition r_ipl_LH_ab_7 (z i b j : nat) : ex := (EAdd (r_ipl_LH_ab_6 (0 + z) i b j) (ESum (0 + z) 3 (ESum (1 + z) 2 (EMul (ET 26 [i; (0 + z); (1 + z)]) (ET 21 [(0 + z); j; (1 + z); b]))))).
Definition r_ipl_LH_ab_8 (z i b j : nat) : ex := (ESub (r_ipl_LH_ab_7 (0 + z) i b j) (ESum (0 + z) 0 (ESum (1 + z) 3 (EMul (ET 26 [(0 + z); (1 + z); j]) (ET 22 [i; (1 + z); (0 + z); b]))))).
Definition r_ipl_I1_1 (z e : nat) : ex := (ESub (EScale (-1) 2 (ESum (0 + z) 0 (ESum (1 + z) 1 (ESum (2 + z) 0 (EMul (ET 25 [(0 + z); (1 + z); (2 + z)]) (ET 13 [e; (1 + z); (0 + z); (2 + z)])))))) (ESum (0 + z) 0 (ESum (1 + z) 3 (ESum (2 + z) 2 (EMul (ET 26 [(0 + z); (1 + z); (2 + z)]) (ET 23 [e; (1 + z); (0 + z); (2 + z)])))))).
Definition r_ipl_LH_ab_9 (z i b j : nat) : ex := (EAdd (r_ipl_LH_ab_8 (0 + z) i b j) (ESum (0 + z) 1 (EMul (r_ipl_I1_1 (1 + z) (0 + z)) (ET 12 [i; j; (0 + z); b])))).
Definition r_ip_lhs (z : nat) : ex := (EAdd (EAdd (ESum (0 + z) 0 (EMul (ET 24 [(0 + z)]) (r_ipr_X1A_4 (1 + z) (0 + z)))) (EScale (1) 2 (ESum (0 + z) 0 (ESum (1 + z) 1 (ESum (2 + z) 0 (EMul (ET 25 [(0 + z); (1 + z); (2 + z)]) (r_ipr_X2A_7 (3 + z) (0 + z) (1 + z) (2 + z)))))))) (ESum (0 + z) 0 (ESum (1 + z) 3 (ESum (2 + z) 2 (EMul (ET 26 [(0 + z); (1 + z); (2 + z)]) (r_ipr_X2B_8 (3 + z) (0 + z) (1 + z) (2 + z))))))).
Definition r_ip_rhs (z : nat) : ex := (EAdd (EAdd (ESum (0 + z) 0 (EMul (r_ipl_LH_a_2 (1 + z) (0 + z)) (ET 1 [(0 + z)]))) (EScale (1) 2 (ESum (0 + z) 0 (ESum (1 + z) 1 (ESum (2 + z) 0 (EMul (r_ipl_LH_aa_8 (3 + z) (0 + z) (1 + z) (2 + z)) (ET 3 [(0 + z); (1 + z); (2 + z)]))))))) (ESum (0 + z) 0 (ESum (1 + z) 3 (ESum (2 + z) 2 (EMul (r_ipl_LH_ab_9 (3 + z) (0 + z) (1 + z) (2 + z)) (ET 5 [(0 + z); (1 + z); (2 + z)])))))).
Definition iplr_arrays (d : dims) (H : ints) (T : amps) (L R : ipv) := [ap2 (i_a_oo H);
  ap1 (ip_a R);
  ap4 (i_aa_ooov H);
  ap3 (ip_aa R);
  ap4 (i_ab_ooov H);
  ap3 (ip_ab R);
  ap2 (i_a_ov H);
  ap2 (i_b_ov H);
  ap4 (i_aa_vooo H);
  ap2 (i_a_vv H);
  ap4 (i_aa_oooo H);
  ap4 (i_aa_oovv H);
  ap4 (i_ab_oovv H);
  ap4 (x_aa T);
  ap4 (i_aa_voov H);
  ap4 (i_ab_voov H);
  ap4 (i_ab_ovoo H);
  ap2 (i_b_oo H);
  ap2 (i_b_vv H);
  ap4 (i_ab_oooo H);
  ap4 (i_ab_ovvo H);
  ap4 (i_bb_voov H);
  ap4 (i_ab_ovov H);
  ap4 (x_ab T);
  ap1 (ip_a L);
  ap3 (ip_aa L);
  ap3 (ip_ab L);
  ap4 (i_aa_oovo H);
  ap4 (i_aa_ovoo H);
  ap4 (i_aa_ovov H);
  ap4 (i_aa_vovo H);
  ap4 (i_bb_ovov H);
  ap4 (i_bb_vovo H);
  ap4 (i_aa_ovvo H);
  ap4 (i_bb_ovvo H)].
Definition iplr_gens : list (nat * (nat * list nat * bool)) := [(2, (2, [1; 0; 2; 3], false));
  (2, (27, [0; 1; 3; 2], false));
  (3, (3, [2; 1; 0], false));
  (8, (28, [1; 0; 2; 3], false));
  (8, (8, [0; 1; 3; 2], false));
  (10, (10, [1; 0; 2; 3], false));
  (10, (10, [0; 1; 3; 2], false));
  (11, (11, [1; 0; 2; 3], false));
  (11, (11, [0; 1; 3; 2], false));
  (13, (13, [1; 0; 2; 3], false));
  (13, (13, [0; 1; 3; 2], false));
  (14, (29, [1; 0; 2; 3], false));
  (14, (30, [0; 1; 3; 2], false));
  (21, (31, [1; 0; 2; 3], false));
  (21, (32, [0; 1; 3; 2], false));
  (25, (25, [2; 1; 0], false));
  (27, (27, [1; 0; 2; 3], false));
  (27, (2, [0; 1; 3; 2], false));
  (28, (8, [1; 0; 2; 3], false));
  (28, (28, [0; 1; 3; 2], false));
  (29, (14, [1; 0; 2; 3], false));
  (29, (33, [0; 1; 3; 2], false));
  (30, (33, [1; 0; 2; 3], false));
  (30, (14, [0; 1; 3; 2], false));
  (31, (21, [1; 0; 2; 3], false));
  (31, (34, [0; 1; 3; 2], false));
  (32, (34, [1; 0; 2; 3], false));
  (32, (21, [0; 1; 3; 2], false));
  (33, (30, [1; 0; 2; 3], false));
  (33, (29, [0; 1; 3; 2], false));
  (34, (32, [1; 0; 2; 3], false));
  (34, (31, [0; 1; 3; 2], false))].
Definition iplr_tab := Eval vm_compute in symtab iplr_gens 35.
