(** Generated by tools/gen_ccsdpt.py: spin symmetry of the CCSD(T) quantities in closed shells (proof support). *)
From Coq Require Import Reals Arith List ZArith.
From Verif Require Import RSum IntegralsModel TensorObjs TensorAlg TensorSpec TensorClosed TensorDeriv EomProps PtModel.
Import ListNotations.
Local Open Scope nat_scope.
Definition z_pt_X3aaa (z a b c i j k : nat) : ex := (EAdd (EAdd (EAdd (EAdd (EAdd (EScale (-1) 2 (ESum (0 + z) 0 (EMul (ET 0 [a; (0 + z); i; j]) (ET 1 [b; c; (0 + z); k])))) (EScale (1) 2 (ESum (0 + z) 0 (EMul (ET 0 [a; (0 + z); k; j]) (ET 1 [b; c; (0 + z); i]))))) (EScale (1) 2 (ESum (0 + z) 0 (EMul (ET 0 [a; (0 + z); i; k]) (ET 1 [b; c; (0 + z); j]))))) (EScale (1) 2 (ESum (0 + z) 1 (EMul (ET 2 [a; b; i; (0 + z)]) (ET 1 [(0 + z); c; j; k]))))) (EScale (-1) 2 (ESum (0 + z) 1 (EMul (ET 2 [a; b; j; (0 + z)]) (ET 1 [(0 + z); c; i; k]))))) (EScale (-1) 2 (ESum (0 + z) 1 (EMul (ET 2 [a; b; k; (0 + z)]) (ET 1 [(0 + z); c; j; i]))))).
Definition z_pt_M_aaa (z a b c i j k : nat) : ex := (ESub (ESub (ESub (EAdd (EAdd (z_pt_X3aaa (0 + z) a b c i j k) (z_pt_X3aaa (0 + z) b c a i j k)) (z_pt_X3aaa (0 + z) c a b i j k)) (z_pt_X3aaa (0 + z) a c b i j k)) (z_pt_X3aaa (0 + z) b a c i j k)) (z_pt_X3aaa (0 + z) c b a i j k)).
Definition z_pt_S_aaa (z a b c i j k : nat) : ex := (EAdd (EAdd (EAdd (EAdd (ESub (ESub (ESub (ESub (EAdd (EAdd (EAdd (EAdd (EAdd (ESub (ESub (ESub (ESub (EMul (ET 3 [c; k]) (ET 4 [i; j; a; b])) (EMul (ET 3 [a; k]) (ET 4 [i; j; c; b]))) (EMul (ET 3 [b; k]) (ET 4 [i; j; a; c]))) (EMul (ET 3 [c; i]) (ET 4 [k; j; a; b]))) (EMul (ET 3 [c; j]) (ET 4 [i; k; a; b]))) (EMul (ET 3 [a; i]) (ET 4 [k; j; c; b]))) (EMul (ET 3 [b; i]) (ET 4 [k; j; a; c]))) (EMul (ET 3 [a; j]) (ET 4 [i; k; c; b]))) (EMul (ET 3 [b; j]) (ET 4 [i; k; a; c]))) (EMul (ET 5 [k; c]) (ET 1 [a; b; i; j]))) (EMul (ET 5 [k; a]) (ET 1 [c; b; i; j]))) (EMul (ET 5 [k; b]) (ET 1 [a; c; i; j]))) (EMul (ET 5 [i; c]) (ET 1 [a; b; k; j]))) (EMul (ET 5 [j; c]) (ET 1 [a; b; i; k]))) (EMul (ET 5 [i; a]) (ET 1 [c; b; k; j]))) (EMul (ET 5 [i; b]) (ET 1 [a; c; k; j]))) (EMul (ET 5 [j; a]) (ET 1 [c; b; i; k]))) (EMul (ET 5 [j; b]) (ET 1 [a; c; i; k]))).
Definition z_pt_L_aaa (z a b c i j k : nat) : ex := (EAdd (z_pt_M_aaa (0 + z) a b c i j k) (z_pt_S_aaa (0 + z) a b c i j k)).
Definition z_pt_X3aab (z a b c i j k : nat) : ex := (EAdd (EAdd (EAdd (EAdd (EAdd (EAdd (EAdd (EAdd (EAdd (EScale (1) 1 (ESum (0 + z) 1 (EMul (ET 1 [a; (0 + z); i; j]) (ET 6 [b; c; (0 + z); k])))) (EScale (1) 2 (ESum (0 + z) 0 (EMul (ET 1 [a; b; (0 + z); i]) (ET 7 [(0 + z); c; j; k]))))) (EScale (-1) 2 (ESum (0 + z) 0 (EMul (ET 1 [a; b; (0 + z); j]) (ET 7 [(0 + z); c; i; k]))))) (EScale (1) 1 (ESum (0 + z) 3 (EMul (ET 8 [a; (0 + z); i; k]) (ET 9 [b; c; j; (0 + z)]))))) (EScale (-1) 1 (ESum (0 + z) 3 (EMul (ET 8 [a; (0 + z); j; k]) (ET 9 [b; c; i; (0 + z)]))))) (EScale (-1) 1 (ESum (0 + z) 2 (EMul (ET 10 [a; (0 + z); i; k]) (ET 8 [b; c; j; (0 + z)]))))) (EScale (1) 1 (ESum (0 + z) 2 (EMul (ET 10 [a; (0 + z); j; k]) (ET 8 [b; c; i; (0 + z)]))))) (EScale (1) 2 (ESum (0 + z) 1 (EMul (ET 2 [a; b; i; (0 + z)]) (ET 8 [(0 + z); c; j; k]))))) (EScale (-1) 2 (ESum (0 + z) 1 (EMul (ET 2 [a; b; j; (0 + z)]) (ET 8 [(0 + z); c; i; k]))))) (EScale (-1) 1 (ESum (0 + z) 0 (EMul (ET 0 [a; (0 + z); i; j]) (ET 8 [b; c; (0 + z); k]))))).
Definition z_pt_M_aab (z a b c i j k : nat) : ex := (ESub (z_pt_X3aab (0 + z) a b c i j k) (z_pt_X3aab (0 + z) b a c i j k)).
Definition z_pt_S_aab (z a b c i j k : nat) : ex := (EAdd (EAdd (ESub (ESub (EAdd (EAdd (EAdd (ESub (ESub (EMul (ET 3 [a; i]) (ET 11 [j; k; b; c])) (EMul (ET 3 [a; j]) (ET 11 [i; k; b; c]))) (EMul (ET 3 [b; i]) (ET 11 [j; k; a; c]))) (EMul (ET 3 [b; j]) (ET 11 [i; k; a; c]))) (EMul (ET 12 [c; k]) (ET 4 [i; j; a; b]))) (EMul (ET 8 [b; c; j; k]) (ET 5 [i; a]))) (EMul (ET 8 [b; c; i; k]) (ET 5 [j; a]))) (EMul (ET 8 [a; c; j; k]) (ET 5 [i; b]))) (EMul (ET 8 [a; c; i; k]) (ET 5 [j; b]))) (EMul (ET 1 [a; b; i; j]) (ET 13 [k; c]))).
Definition z_pt_L_aab (z a b c i j k : nat) : ex := (EAdd (z_pt_M_aab (0 + z) a b c i j k) (z_pt_S_aab (0 + z) a b c i j k)).
Definition z_pt_X3abb (z a b c i j k : nat) : ex := (EAdd (EAdd (EAdd (EAdd (EAdd (EAdd (EAdd (EAdd (EAdd (EScale (1) 1 (ESum (0 + z) 3 (EMul (ET 9 [a; b; i; (0 + z)]) (ET 14 [(0 + z); c; j; k])))) (EScale (-1) 2 (ESum (0 + z) 2 (EMul (ET 10 [a; (0 + z); i; j]) (ET 14 [b; c; (0 + z); k]))))) (EScale (1) 2 (ESum (0 + z) 2 (EMul (ET 10 [a; (0 + z); i; k]) (ET 14 [b; c; (0 + z); j]))))) (EScale (1) 2 (ESum (0 + z) 3 (EMul (ET 8 [a; (0 + z); i; j]) (ET 15 [c; b; k; (0 + z)]))))) (EScale (-1) 2 (ESum (0 + z) 3 (EMul (ET 8 [a; (0 + z); i; k]) (ET 15 [c; b; j; (0 + z)]))))) (EScale (-1) 1 (ESum (0 + z) 2 (EMul (ET 8 [a; b; i; (0 + z)]) (ET 16 [c; (0 + z); k; j]))))) (EScale (1) 1 (ESum (0 + z) 1 (EMul (ET 6 [a; b; (0 + z); j]) (ET 8 [(0 + z); c; i; k]))))) (EScale (-1) 1 (ESum (0 + z) 1 (EMul (ET 6 [a; b; (0 + z); k]) (ET 8 [(0 + z); c; i; j]))))) (EScale (-1) 1 (ESum (0 + z) 0 (EMul (ET 8 [a; b; (0 + z); j]) (ET 7 [(0 + z); c; i; k]))))) (EScale (1) 1 (ESum (0 + z) 0 (EMul (ET 8 [a; b; (0 + z); k]) (ET 7 [(0 + z); c; i; j]))))).
Definition z_pt_M_abb (z a b c i j k : nat) : ex := (ESub (z_pt_X3abb (0 + z) a b c i j k) (z_pt_X3abb (0 + z) a c b i j k)).
Definition z_pt_S_abb (z a b c i j k : nat) : ex := (EAdd (EAdd (ESub (ESub (EAdd (EAdd (EAdd (ESub (ESub (EMul (ET 12 [c; k]) (ET 11 [i; j; a; b])) (EMul (ET 12 [b; k]) (ET 11 [i; j; a; c]))) (EMul (ET 12 [c; j]) (ET 11 [i; k; a; b]))) (EMul (ET 12 [b; j]) (ET 11 [i; k; a; c]))) (EMul (ET 3 [a; i]) (ET 17 [j; k; b; c]))) (EMul (ET 13 [k; c]) (ET 8 [a; b; i; j]))) (EMul (ET 13 [k; b]) (ET 8 [a; c; i; j]))) (EMul (ET 13 [j; c]) (ET 8 [a; b; i; k]))) (EMul (ET 13 [j; b]) (ET 8 [a; c; i; k]))) (EMul (ET 5 [i; a]) (ET 14 [b; c; j; k]))).
Definition z_pt_L_abb (z a b c i j k : nat) : ex := (EAdd (z_pt_M_abb (0 + z) a b c i j k) (z_pt_S_abb (0 + z) a b c i j k)).
Definition z_pt_X3bbb (z a b c i j k : nat) : ex := (EAdd (EAdd (EAdd (EAdd (EAdd (EScale (-1) 2 (ESum (0 + z) 2 (EMul (ET 16 [a; (0 + z); i; j]) (ET 14 [b; c; (0 + z); k])))) (EScale (1) 2 (ESum (0 + z) 2 (EMul (ET 16 [a; (0 + z); k; j]) (ET 14 [b; c; (0 + z); i]))))) (EScale (1) 2 (ESum (0 + z) 2 (EMul (ET 16 [a; (0 + z); i; k]) (ET 14 [b; c; (0 + z); j]))))) (EScale (1) 2 (ESum (0 + z) 3 (EMul (ET 15 [a; b; i; (0 + z)]) (ET 14 [(0 + z); c; j; k]))))) (EScale (-1) 2 (ESum (0 + z) 3 (EMul (ET 15 [a; b; j; (0 + z)]) (ET 14 [(0 + z); c; i; k]))))) (EScale (-1) 2 (ESum (0 + z) 3 (EMul (ET 15 [a; b; k; (0 + z)]) (ET 14 [(0 + z); c; j; i]))))).
Definition z_pt_M_bbb (z a b c i j k : nat) : ex := (ESub (ESub (ESub (EAdd (EAdd (z_pt_X3bbb (0 + z) a b c i j k) (z_pt_X3bbb (0 + z) b c a i j k)) (z_pt_X3bbb (0 + z) c a b i j k)) (z_pt_X3bbb (0 + z) a c b i j k)) (z_pt_X3bbb (0 + z) b a c i j k)) (z_pt_X3bbb (0 + z) c b a i j k)).
Definition z_pt_S_bbb (z a b c i j k : nat) : ex := (EAdd (EAdd (EAdd (EAdd (ESub (ESub (ESub (ESub (EAdd (EAdd (EAdd (EAdd (EAdd (ESub (ESub (ESub (ESub (EMul (ET 12 [c; k]) (ET 17 [i; j; a; b])) (EMul (ET 12 [a; k]) (ET 17 [i; j; c; b]))) (EMul (ET 12 [b; k]) (ET 17 [i; j; a; c]))) (EMul (ET 12 [c; i]) (ET 17 [k; j; a; b]))) (EMul (ET 12 [c; j]) (ET 17 [i; k; a; b]))) (EMul (ET 12 [a; i]) (ET 17 [k; j; c; b]))) (EMul (ET 12 [b; i]) (ET 17 [k; j; a; c]))) (EMul (ET 12 [a; j]) (ET 17 [i; k; c; b]))) (EMul (ET 12 [b; j]) (ET 17 [i; k; a; c]))) (EMul (ET 13 [k; c]) (ET 14 [a; b; i; j]))) (EMul (ET 13 [k; a]) (ET 14 [c; b; i; j]))) (EMul (ET 13 [k; b]) (ET 14 [a; c; i; j]))) (EMul (ET 13 [i; c]) (ET 14 [a; b; k; j]))) (EMul (ET 13 [j; c]) (ET 14 [a; b; i; k]))) (EMul (ET 13 [i; a]) (ET 14 [c; b; k; j]))) (EMul (ET 13 [i; b]) (ET 14 [a; c; k; j]))) (EMul (ET 13 [j; a]) (ET 14 [c; b; i; k]))) (EMul (ET 13 [j; b]) (ET 14 [a; c; i; k]))).
Definition z_pt_L_bbb (z a b c i j k : nat) : ex := (EAdd (z_pt_M_bbb (0 + z) a b c i j k) (z_pt_S_bbb (0 + z) a b c i j k)).
Definition q_pt_M_abb : ex * ex := (z_pt_M_abb 6 0 1 2 3 4 5, z_pt_M_aab 6 1 2 0 4 5 3).
Definition q_pt_M_bbb : ex * ex := (z_pt_M_bbb 6 0 1 2 3 4 5, z_pt_M_aaa 6 0 1 2 3 4 5).
Definition q_pt_L_abb : ex * ex := (z_pt_L_abb 6 0 1 2 3 4 5, z_pt_L_aab 6 1 2 0 4 5 3).
Definition q_pt_L_bbb : ex * ex := (z_pt_L_bbb 6 0 1 2 3 4 5, z_pt_L_aaa 6 0 1 2 3 4 5).
Definition ptrhf_arrays (d : dims) (H : ints) (T : amps) := [ap4 (i_aa_vooo H);
  ap4 (x_aa T);
  ap4 (i_aa_vvov H);
  ap2 (x_a T);
  ap4 (i_aa_oovv H);
  ap2 (i_a_ov H);
  ap4 (i_ab_vvvo H);
  ap4 (i_ab_ovoo H);
  ap4 (x_ab T);
  ap4 (i_ab_vvov H);
  ap4 (i_ab_vooo H);
  ap4 (i_ab_oovv H);
  ap2 (x_b T);
  ap2 (i_b_ov H);
  ap4 (x_bb T);
  ap4 (i_bb_vvov H);
  ap4 (i_bb_vooo H);
  ap4 (i_bb_oovv H);
  ap4 (i_aa_ovoo H);
  ap4 (i_aa_vvvo H);
  ap4 (i_bb_vvvo H);
  ap4 (i_bb_ovoo H)].
Definition ptrhf_gens : list (nat * (nat * list nat * bool)) := [(0, (18, [1; 0; 2; 3], false));
  (0, (0, [0; 1; 3; 2], false));
  (1, (1, [1; 0; 2; 3], false));
  (1, (1, [0; 1; 3; 2], false));
  (2, (2, [1; 0; 2; 3], false));
  (2, (19, [0; 1; 3; 2], false));
  (4, (4, [1; 0; 2; 3], false));
  (4, (4, [0; 1; 3; 2], false));
  (6, (9, [1; 0; 3; 2], true));
  (7, (10, [1; 0; 3; 2], true));
  (8, (8, [1; 0; 3; 2], true));
  (9, (6, [1; 0; 3; 2], true));
  (10, (7, [1; 0; 3; 2], true));
  (11, (11, [1; 0; 3; 2], true));
  (12, (3, [0; 1], true));
  (13, (5, [0; 1], true));
  (14, (14, [1; 0; 2; 3], false));
  (14, (14, [0; 1; 3; 2], false));
  (14, (1, [0; 1; 2; 3], true));
  (15, (15, [1; 0; 2; 3], false));
  (15, (20, [0; 1; 3; 2], false));
  (15, (2, [0; 1; 2; 3], true));
  (16, (21, [1; 0; 2; 3], false));
  (16, (16, [0; 1; 3; 2], false));
  (16, (0, [0; 1; 2; 3], true));
  (17, (17, [1; 0; 2; 3], false));
  (17, (17, [0; 1; 3; 2], false));
  (17, (4, [0; 1; 2; 3], true));
  (18, (0, [1; 0; 2; 3], false));
  (18, (18, [0; 1; 3; 2], false));
  (19, (19, [1; 0; 2; 3], false));
  (19, (2, [0; 1; 3; 2], false));
  (20, (20, [1; 0; 2; 3], false));
  (20, (15, [0; 1; 3; 2], false));
  (20, (19, [0; 1; 2; 3], true));
  (21, (16, [1; 0; 2; 3], false));
  (21, (21, [0; 1; 3; 2], false));
  (21, (18, [0; 1; 2; 3], true))].
Definition ptrhf_tab := Eval vm_compute in symtab ptrhf_gens 22.
Local Open Scope R_scope.
Section C.
Variables (d : dims) (H : ints) (T : amps).
Hypothesis En : noa d = nob d.
Hypothesis Em : nua d = nub d.
Hypothesis HH : antisym_ints H.
Hypothesis CH : closed_ints H.
Hypothesis HT : antisym_amps T.
Hypothesis CT : closed_amps T.
Lemma ptrhf_syms : Forall (fun g => okalt (tenv (ptrhf_arrays d H T)) (fst g) (snd g)) ptrhf_gens.
Proof. sym_all. Qed.
Lemma ptrhf_same e1 e2 v : same_tab ptrhf_tab dfold [0; 1]%nat e1 e2 = true -> den (denv [noa d; nua d; nob d; nub d]) (tenv (ptrhf_arrays d H T)) e1 v = den (denv [noa d; nua d; nob d; nub d]) (tenv (ptrhf_arrays d H T)) e2 v.
Proof.
  intros E. apply (same_tab_sound _ _ ptrhf_gens 22 ptrhf_tab dfold [0; 1]%nat); [vm_compute; reflexivity|now apply dfold_ok|exact ptrhf_syms|exact E].
Qed.
Lemma fp_M_abb a b c i j k : pt_M_abb d H T a b c i j k = pt_M_aab d H T b c a j k i.
Proof. apply (ptrhf_same (fst q_pt_M_abb) (snd q_pt_M_abb) (venv [a; b; c; i; j; k])). vm_compute. reflexivity. Qed.
Lemma fp_M_bbb a b c i j k : pt_M_bbb d H T a b c i j k = pt_M_aaa d H T a b c i j k.
Proof. apply (ptrhf_same (fst q_pt_M_bbb) (snd q_pt_M_bbb) (venv [a; b; c; i; j; k])). vm_compute. reflexivity. Qed.
Lemma fp_L_abb a b c i j k : pt_L_abb d H T a b c i j k = pt_L_aab d H T b c a j k i.
Proof. apply (ptrhf_same (fst q_pt_L_abb) (snd q_pt_L_abb) (venv [a; b; c; i; j; k])). vm_compute. reflexivity. Qed.
Lemma fp_L_bbb a b c i j k : pt_L_bbb d H T a b c i j k = pt_L_aaa d H T a b c i j k.
Proof. apply (ptrhf_same (fst q_pt_L_bbb) (snd q_pt_L_bbb) (venv [a; b; c; i; j; k])). vm_compute. reflexivity. Qed.
Lemma fp_D_bbb a b c i j k : pt_D_bbb d H T a b c i j k = pt_D_aaa d H T a b c i j k.
Proof. unfold pt_D_bbb, pt_D_aaa. now rewrite !(ci_a_oo H CH), !(ci_a_vv H CH). Qed.
Lemma fp_D_abb a b c i j k : pt_D_abb d H T a b c i j k = pt_D_aab d H T b c a j k i.
Proof. unfold pt_D_abb, pt_D_aab. rewrite !(ci_a_oo H CH), !(ci_a_vv H CH). ring. Qed.
End C.
