(** Generated by tools/gen_skel3.py: the sigma vectors of Sector3Model.v as expressions over the blocks of the similarity-transformed Hamiltonian; they read
    each block inside its dimensions only, and no singly excited amplitudes (proof support). *)
From Coq Require Import Reals Arith List Bool Lia ZArith.
From Verif Require Import RSum IntegralsModel TensorObjs TensorAlg CcsdReify CcsdModel FockSpec FockArrays FockTerms FockCheck FockState FockSectorTools HbarDress HbarSpec HbarBlocks Sector3Model Sector3Spec.
Import ListNotations.
Local Open Scope nat_scope.
Lemma skel d X Y T T' Rs G e v : ints_agree d X Y -> (forall a b i j, x_aa T a b i j = x_aa T' a b i j) -> (forall a b i j, x_ab T a b i j = x_ab T' a b i j) -> (forall a b i j, x_bb T a b i j = x_bb T' a b i j) ->
  length Rs <= 33 -> typed blocks 40 G (retag (to_sector (length Rs)) e) = true -> ranged (fdim d) G v -> den (fdim d) (tenv (jac_arrays d X T T ++ Rs)) e v = den (fdim d) (tenv (jac_arrays d Y T' T' ++ Rs)) e v.
Proof.
  intros HX Ta Tb Tc HL K HR. rewrite <- !retag_sector by exact HL. apply (typed_den (fdim d) _ _ blocks 40) with (G := G); [| |exact K|exact HR].
  - intros k cs E u ix Hx. assert (k < 66) by (do 66 (destruct k as [|k]; [lia|]); discriminate E).
    unfold tenv. rewrite !app_nth1 by (cbn [length fock_arrays]; lia). exact (blocks_agree d X Y T T' HX Ta Tb Tc k cs E 40 u ix Hx).
  - intros k l Hk. unfold tenv. rewrite !app_nth2 by (cbn [length fock_arrays]; lia). reflexivity.
Qed.
Ltac rng6 := let x := fresh "x" in let c := fresh "c" in let E := fresh "E" in intros x c E; do 6 (destruct x as [|x]; [try discriminate E; cbv [lookc Nat.eqb] in E; injection E as <-; assumption|]); discriminate E.
Definition k_iptr_X_aa_ovv (z i b e : nat) : ex := (EAdd (EAdd (EAdd (EAdd (ESub (EScale (-1) 2 (ESum (0 + z) 0 (ESum (1 + z) 0 (ESum (2 + z) 1 (EMul (ET 1 [(0 + z); (1 + z); e; (2 + z)]) (ET 69 [i; b; (2 + z); (0 + z); (1 + z)])))))) (ESum (0 + z) 0 (ESum (1 + z) 2 (ESum (2 + z) 3 (EMul (ET 3 [(0 + z); (1 + z); e; (2 + z)]) (ET 70 [i; b; (2 + z); (0 + z); (1 + z)])))))) (ESum (0 + z) 0 (ESum (1 + z) 1 (EMul (ET 8 [b; (0 + z); e; (1 + z)]) (ET 67 [i; (1 + z); (0 + z)]))))) (ESum (0 + z) 2 (ESum (1 + z) 3 (EMul (ET 9 [b; (0 + z); e; (1 + z)]) (ET 68 [i; (1 + z); (0 + z)]))))) (EScale (1) 2 (ESum (0 + z) 0 (ESum (1 + z) 0 (EMul (ET 13 [(0 + z); (1 + z); i; e]) (ET 67 [(0 + z); b; (1 + z)])))))) (ESum (0 + z) 0 (EMul (ET 22 [b; (0 + z); i; e]) (ET 66 [(0 + z)])))).
Definition k_iptr_X_ab_vvo (z e b j : nat) : ex := (ESub (EAdd (ESub (ESub (EScale (-1) 2 (ESum (0 + z) 0 (ESum (1 + z) 0 (ESum (2 + z) 1 (EMul (ET 1 [(0 + z); (1 + z); e; (2 + z)]) (ET 70 [(0 + z); (2 + z); b; (1 + z); j])))))) (ESum (0 + z) 0 (ESum (1 + z) 2 (ESum (2 + z) 3 (EMul (ET 3 [(0 + z); (1 + z); e; (2 + z)]) (ET 71 [(0 + z); b; (2 + z); j; (1 + z)])))))) (ESum (0 + z) 0 (ESum (1 + z) 3 (EMul (ET 17 [(0 + z); b; e; (1 + z)]) (ET 68 [(0 + z); (1 + z); j]))))) (ESum (0 + z) 0 (ESum (1 + z) 2 (EMul (ET 21 [(0 + z); (1 + z); e; j]) (ET 68 [(0 + z); b; (1 + z)]))))) (ESum (0 + z) 0 (EMul (ET 26 [(0 + z); b; e; j]) (ET 66 [(0 + z)])))).
Definition k_iptr_X_ab_ovv (z i b e : nat) : ex := (ESub (EAdd (EAdd (EAdd (ESub (EOpp (ESum (0 + z) 0 (ESum (1 + z) 2 (ESum (2 + z) 1 (EMul (ET 3 [(0 + z); (1 + z); (2 + z); e]) (ET 70 [i; (2 + z); b; (0 + z); (1 + z)])))))) (EScale (1) 2 (ESum (0 + z) 2 (ESum (1 + z) 2 (ESum (2 + z) 3 (EMul (ET 6 [(0 + z); (1 + z); e; (2 + z)]) (ET 71 [i; b; (2 + z); (0 + z); (1 + z)]))))))) (ESum (0 + z) 0 (ESum (1 + z) 1 (EMul (ET 17 [(0 + z); b; (1 + z); e]) (ET 67 [i; (1 + z); (0 + z)]))))) (ESum (0 + z) 2 (ESum (1 + z) 3 (EMul (ET 16 [b; (0 + z); e; (1 + z)]) (ET 68 [i; (1 + z); (0 + z)]))))) (ESum (0 + z) 0 (ESum (1 + z) 2 (EMul (ET 14 [(0 + z); (1 + z); i; e]) (ET 68 [(0 + z); b; (1 + z)]))))) (ESum (0 + z) 0 (EMul (ET 35 [(0 + z); b; i; e]) (ET 66 [(0 + z)])))).
Definition k_iptr_X_aa_ooo (z i m j : nat) : ex := (ESub (EAdd (EAdd (EAdd (EScale (1) 4 (ESum (0 + z) 0 (ESum (1 + z) 1 (ESum (2 + z) 1 (EMul (ET 1 [m; (0 + z); (1 + z); (2 + z)]) (ET 69 [i; (1 + z); (2 + z); j; (0 + z)])))))) (EScale (1) 2 (ESum (0 + z) 2 (ESum (1 + z) 1 (ESum (2 + z) 3 (EMul (ET 3 [m; (0 + z); (1 + z); (2 + z)]) (ET 70 [i; (1 + z); (2 + z); j; (0 + z)]))))))) (ESum (0 + z) 0 (ESum (1 + z) 1 (EMul (ET 13 [m; (0 + z); j; (1 + z)]) (ET 67 [i; (1 + z); (0 + z)]))))) (ESum (0 + z) 2 (ESum (1 + z) 3 (EMul (ET 14 [m; (0 + z); j; (1 + z)]) (ET 68 [i; (1 + z); (0 + z)]))))) (EScale (1) 2 (ESum (0 + z) 0 (EMul (ET 28 [m; (0 + z); j; i]) (ET 66 [(0 + z)]))))).
Definition k_iptr_X_aa_ooo_1 (z i m j : nat) : ex := (ESub (k_iptr_X_aa_ooo (0 + z) i m j) (k_iptr_X_aa_ooo (0 + z) j m i)).
Definition k_iptr_X_ab_ooo (z i m j : nat) : ex := (ESub (ESub (EAdd (EAdd (EAdd (ESum (0 + z) 0 (ESum (1 + z) 1 (ESum (2 + z) 3 (EMul (ET 3 [(0 + z); m; (1 + z); (2 + z)]) (ET 70 [i; (1 + z); (2 + z); (0 + z); j]))))) (EScale (1) 2 (ESum (0 + z) 2 (ESum (1 + z) 3 (ESum (2 + z) 3 (EMul (ET 6 [m; (0 + z); (1 + z); (2 + z)]) (ET 71 [i; (1 + z); (2 + z); j; (0 + z)]))))))) (ESum (0 + z) 0 (ESum (1 + z) 1 (EMul (ET 21 [(0 + z); m; (1 + z); j]) (ET 67 [i; (1 + z); (0 + z)]))))) (ESum (0 + z) 2 (ESum (1 + z) 3 (EMul (ET 20 [m; (0 + z); j; (1 + z)]) (ET 68 [i; (1 + z); (0 + z)]))))) (ESum (0 + z) 0 (ESum (1 + z) 3 (EMul (ET 14 [(0 + z); m; i; (1 + z)]) (ET 68 [(0 + z); (1 + z); j]))))) (ESum (0 + z) 0 (EMul (ET 34 [(0 + z); m; i; j]) (ET 66 [(0 + z)])))).
Definition k_iptr_X1A (z i : nat) : ex := (ESub (EC (0) 1) (ESum (0 + z) 0 (EMul (ET 12 [(0 + z); i]) (ET 66 [(0 + z)])))).
Definition k_iptr_X1A_1 (z i : nat) : ex := (ESub (k_iptr_X1A (0 + z) i) (EScale (1) 2 (ESum (0 + z) 0 (ESum (1 + z) 0 (ESum (2 + z) 1 (EMul (ET 13 [(0 + z); (1 + z); i; (2 + z)]) (ET 67 [(0 + z); (2 + z); (1 + z)]))))))).
Definition k_iptr_X1A_2 (z i : nat) : ex := (ESub (k_iptr_X1A_1 (0 + z) i) (ESum (0 + z) 0 (ESum (1 + z) 2 (ESum (2 + z) 3 (EMul (ET 14 [(0 + z); (1 + z); i; (2 + z)]) (ET 68 [(0 + z); (2 + z); (1 + z)])))))).
Definition k_iptr_X1A_3 (z i : nat) : ex := (EAdd (k_iptr_X1A_2 (0 + z) i) (ESum (0 + z) 0 (ESum (1 + z) 1 (EMul (ET 0 [(0 + z); (1 + z)]) (ET 67 [i; (1 + z); (0 + z)]))))).
Definition k_iptr_X1A_4 (z i : nat) : ex := (EAdd (k_iptr_X1A_3 (0 + z) i) (ESum (0 + z) 2 (ESum (1 + z) 3 (EMul (ET 5 [(0 + z); (1 + z)]) (ET 68 [i; (1 + z); (0 + z)]))))).
Definition k_iptr_X1A_5 (z i : nat) : ex := (EAdd (k_iptr_X1A_4 (0 + z) i) (EScale (1) 4 (ESum (0 + z) 0 (ESum (1 + z) 0 (ESum (2 + z) 1 (ESum (3 + z) 1 (EMul (ET 1 [(0 + z); (1 + z); (2 + z); (3 + z)]) (ET 69 [i; (2 + z); (3 + z); (0 + z); (1 + z)])))))))).
Definition k_iptr_X1A_6 (z i : nat) : ex := (EAdd (k_iptr_X1A_5 (0 + z) i) (ESum (0 + z) 0 (ESum (1 + z) 2 (ESum (2 + z) 1 (ESum (3 + z) 3 (EMul (ET 3 [(0 + z); (1 + z); (2 + z); (3 + z)]) (ET 70 [i; (2 + z); (3 + z); (0 + z); (1 + z)]))))))).
Definition k_iptr_X1A_7 (z i : nat) : ex := (EAdd (k_iptr_X1A_6 (0 + z) i) (EScale (1) 4 (ESum (0 + z) 2 (ESum (1 + z) 2 (ESum (2 + z) 3 (ESum (3 + z) 3 (EMul (ET 6 [(0 + z); (1 + z); (2 + z); (3 + z)]) (ET 71 [i; (2 + z); (3 + z); (0 + z); (1 + z)])))))))).
Definition k_iptr_X2A (z i b j : nat) : ex := (EScale (-1) 2 (ESum (0 + z) 0 (EMul (ET 29 [b; (0 + z); j; i]) (ET 66 [(0 + z)])))).
Definition k_iptr_X2A_1 (z i b j : nat) : ex := (EAdd (k_iptr_X2A (0 + z) i b j) (EScale (1) 2 (ESum (0 + z) 1 (EMul (ET 7 [b; (0 + z)]) (ET 67 [i; (0 + z); j]))))).
Definition k_iptr_X2A_2 (z i b j : nat) : ex := (EAdd (k_iptr_X2A_1 (0 + z) i b j) (EScale (1) 4 (ESum (0 + z) 0 (ESum (1 + z) 0 (EMul (ET 28 [(0 + z); (1 + z); i; j]) (ET 67 [(0 + z); b; (1 + z)])))))).
Definition k_iptr_I1 (z e : nat) : ex := (ESub (EScale (-1) 2 (ESum (0 + z) 0 (ESum (1 + z) 0 (ESum (2 + z) 1 (EMul (ET 1 [(0 + z); (1 + z); e; (2 + z)]) (ET 67 [(0 + z); (2 + z); (1 + z)])))))) (ESum (0 + z) 0 (ESum (1 + z) 2 (ESum (2 + z) 3 (EMul (ET 3 [(0 + z); (1 + z); e; (2 + z)]) (ET 68 [(0 + z); (2 + z); (1 + z)])))))).
Definition k_iptr_X2A_3 (z i b j : nat) : ex := (EAdd (k_iptr_X2A_2 (0 + z) i b j) (EScale (1) 2 (ESum (0 + z) 1 (EMul (k_iptr_I1 (1 + z) (0 + z)) (ET 10 [(0 + z); b; i; j]))))).
Definition k_iptr_X2A_4 (z i b j : nat) : ex := (ESub (k_iptr_X2A_3 (0 + z) i b j) (ESum (0 + z) 0 (EMul (ET 12 [(0 + z); i]) (ET 67 [(0 + z); b; j])))).
Definition k_iptr_X2A_5 (z i b j : nat) : ex := (EAdd (k_iptr_X2A_4 (0 + z) i b j) (ESum (0 + z) 0 (ESum (1 + z) 1 (EMul (ET 22 [b; (0 + z); j; (1 + z)]) (ET 67 [i; (1 + z); (0 + z)]))))).
Definition k_iptr_X2A_6 (z i b j : nat) : ex := (EAdd (k_iptr_X2A_5 (0 + z) i b j) (ESum (0 + z) 2 (ESum (1 + z) 3 (EMul (ET 23 [b; (0 + z); j; (1 + z)]) (ET 68 [i; (1 + z); (0 + z)]))))).
Definition k_iptr_X2A_7 (z i b j : nat) : ex := (EAdd (k_iptr_X2A_6 (0 + z) i b j) (EScale (1) 2 (ESum (0 + z) 0 (ESum (1 + z) 1 (EMul (ET 0 [(0 + z); (1 + z)]) (ET 69 [i; b; (1 + z); j; (0 + z)])))))).
Definition k_iptr_X2A_8 (z i b j : nat) : ex := (EAdd (k_iptr_X2A_7 (0 + z) i b j) (EScale (1) 2 (ESum (0 + z) 2 (ESum (1 + z) 3 (EMul (ET 5 [(0 + z); (1 + z)]) (ET 70 [i; b; (1 + z); j; (0 + z)])))))).
Definition k_iptr_X2A_9 (z i b j : nat) : ex := (EAdd (k_iptr_X2A_8 (0 + z) i b j) (EScale (1) 4 (ESum (0 + z) 0 (ESum (1 + z) 1 (ESum (2 + z) 1 (EMul (ET 8 [b; (0 + z); (1 + z); (2 + z)]) (ET 69 [i; (1 + z); (2 + z); j; (0 + z)]))))))).
Definition k_iptr_X2A_10 (z i b j : nat) : ex := (EAdd (k_iptr_X2A_9 (0 + z) i b j) (EScale (1) 2 (ESum (0 + z) 2 (ESum (1 + z) 1 (ESum (2 + z) 3 (EMul (ET 9 [b; (0 + z); (1 + z); (2 + z)]) (ET 70 [i; (1 + z); (2 + z); j; (0 + z)]))))))).
Definition k_iptr_X2A_11 (z i b j : nat) : ex := (ESub (k_iptr_X2A_10 (0 + z) i b j) (EScale (1) 2 (ESum (0 + z) 0 (ESum (1 + z) 0 (ESum (2 + z) 1 (EMul (ET 13 [(0 + z); (1 + z); j; (2 + z)]) (ET 69 [i; b; (2 + z); (0 + z); (1 + z)]))))))).
Definition k_iptr_X2A_12 (z i b j : nat) : ex := (ESub (k_iptr_X2A_11 (0 + z) i b j) (ESum (0 + z) 0 (ESum (1 + z) 2 (ESum (2 + z) 3 (EMul (ET 14 [(0 + z); (1 + z); j; (2 + z)]) (ET 70 [i; b; (2 + z); (0 + z); (1 + z)])))))).
Definition k_iptr_X2A_13 (z i b j : nat) : ex := (ESub (k_iptr_X2A_12 (0 + z) i b j) (k_iptr_X2A_12 (0 + z) j b i)).
Definition k_iptr_X2B (z i b j : nat) : ex := (EScale (-1) 1 (ESum (0 + z) 0 (EMul (ET 37 [(0 + z); b; i; j]) (ET 66 [(0 + z)])))).
Definition k_iptr_X2B_1 (z i b j : nat) : ex := (ESub (k_iptr_X2B (0 + z) i b j) (ESum (0 + z) 0 (EMul (ET 12 [(0 + z); i]) (ET 68 [(0 + z); b; j])))).
Definition k_iptr_X2B_2 (z i b j : nat) : ex := (ESub (k_iptr_X2B_1 (0 + z) i b j) (ESum (0 + z) 2 (EMul (ET 19 [(0 + z); j]) (ET 68 [i; b; (0 + z)])))).
Definition k_iptr_X2B_3 (z i b j : nat) : ex := (EAdd (k_iptr_X2B_2 (0 + z) i b j) (ESum (0 + z) 3 (EMul (ET 15 [b; (0 + z)]) (ET 68 [i; (0 + z); j])))).
Definition k_iptr_X2B_4 (z i b j : nat) : ex := (EAdd (k_iptr_X2B_3 (0 + z) i b j) (ESum (0 + z) 0 (ESum (1 + z) 2 (EMul (ET 34 [(0 + z); (1 + z); i; j]) (ET 68 [(0 + z); b; (1 + z)]))))).
Definition k_iptr_X2B_5 (z i b j : nat) : ex := (EAdd (k_iptr_X2B_4 (0 + z) i b j) (ESum (0 + z) 0 (ESum (1 + z) 1 (EMul (ET 26 [(0 + z); b; (1 + z); j]) (ET 67 [i; (1 + z); (0 + z)]))))).
Definition k_iptr_X2B_6 (z i b j : nat) : ex := (EAdd (k_iptr_X2B_5 (0 + z) i b j) (ESum (0 + z) 2 (ESum (1 + z) 3 (EMul (ET 25 [b; (0 + z); j; (1 + z)]) (ET 68 [i; (1 + z); (0 + z)]))))).
Definition k_iptr_X2B_7 (z i b j : nat) : ex := (ESub (k_iptr_X2B_6 (0 + z) i b j) (ESum (0 + z) 0 (ESum (1 + z) 3 (EMul (ET 35 [(0 + z); b; i; (1 + z)]) (ET 68 [(0 + z); (1 + z); j]))))).
Definition k_iptr_I1_1 (z e : nat) : ex := (ESub (EScale (-1) 2 (ESum (0 + z) 0 (ESum (1 + z) 0 (ESum (2 + z) 1 (EMul (ET 1 [(0 + z); (1 + z); e; (2 + z)]) (ET 67 [(0 + z); (2 + z); (1 + z)])))))) (ESum (0 + z) 0 (ESum (1 + z) 2 (ESum (2 + z) 3 (EMul (ET 3 [(0 + z); (1 + z); e; (2 + z)]) (ET 68 [(0 + z); (2 + z); (1 + z)])))))).
Definition k_iptr_X2B_8 (z i b j : nat) : ex := (EAdd (k_iptr_X2B_7 (0 + z) i b j) (ESum (0 + z) 1 (EMul (k_iptr_I1_1 (1 + z) (0 + z)) (ET 11 [(0 + z); b; i; j])))).
Definition k_iptr_X2B_9 (z i b j : nat) : ex := (EAdd (k_iptr_X2B_8 (0 + z) i b j) (ESum (0 + z) 0 (ESum (1 + z) 1 (EMul (ET 0 [(0 + z); (1 + z)]) (ET 70 [i; (1 + z); b; (0 + z); j]))))).
Definition k_iptr_X2B_10 (z i b j : nat) : ex := (EAdd (k_iptr_X2B_9 (0 + z) i b j) (ESum (0 + z) 2 (ESum (1 + z) 3 (EMul (ET 5 [(0 + z); (1 + z)]) (ET 71 [i; b; (1 + z); j; (0 + z)]))))).
Definition k_iptr_X2B_11 (z i b j : nat) : ex := (EAdd (k_iptr_X2B_10 (0 + z) i b j) (ESum (0 + z) 0 (ESum (1 + z) 1 (ESum (2 + z) 3 (EMul (ET 17 [(0 + z); b; (1 + z); (2 + z)]) (ET 70 [i; (1 + z); (2 + z); (0 + z); j])))))).
Definition k_iptr_X2B_12 (z i b j : nat) : ex := (EAdd (k_iptr_X2B_11 (0 + z) i b j) (EScale (1) 2 (ESum (0 + z) 2 (ESum (1 + z) 3 (ESum (2 + z) 3 (EMul (ET 16 [b; (0 + z); (1 + z); (2 + z)]) (ET 71 [i; (1 + z); (2 + z); j; (0 + z)]))))))).
Definition k_iptr_X2B_13 (z i b j : nat) : ex := (ESub (k_iptr_X2B_12 (0 + z) i b j) (EScale (1) 2 (ESum (0 + z) 0 (ESum (1 + z) 0 (ESum (2 + z) 1 (EMul (ET 13 [(0 + z); (1 + z); i; (2 + z)]) (ET 70 [(0 + z); (2 + z); b; (1 + z); j]))))))).
Definition k_iptr_X2B_14 (z i b j : nat) : ex := (ESub (k_iptr_X2B_13 (0 + z) i b j) (ESum (0 + z) 0 (ESum (1 + z) 2 (ESum (2 + z) 3 (EMul (ET 14 [(0 + z); (1 + z); i; (2 + z)]) (ET 71 [(0 + z); (2 + z); b; (1 + z); j])))))).
Definition k_iptr_X2B_15 (z i b j : nat) : ex := (ESub (k_iptr_X2B_14 (0 + z) i b j) (ESum (0 + z) 0 (ESum (1 + z) 2 (ESum (2 + z) 1 (EMul (ET 21 [(0 + z); (1 + z); (2 + z); j]) (ET 70 [i; (2 + z); b; (0 + z); (1 + z)])))))).
Definition k_iptr_X2B_16 (z i b j : nat) : ex := (ESub (k_iptr_X2B_15 (0 + z) i b j) (EScale (1) 2 (ESum (0 + z) 2 (ESum (1 + z) 2 (ESum (2 + z) 3 (EMul (ET 20 [(0 + z); (1 + z); j; (2 + z)]) (ET 71 [i; (2 + z); b; (1 + z); (0 + z)]))))))).
Definition k_iptr_X3A (z i b c j k : nat) : ex := (EScale (-1) 4 (ESum (0 + z) 0 (EMul (ET 12 [(0 + z); j]) (ET 69 [i; b; c; (0 + z); k])))).
Definition k_iptr_X3A_1 (z i b c j k : nat) : ex := (EAdd (k_iptr_X3A (0 + z) i b c j k) (EScale (1) 6 (ESum (0 + z) 1 (EMul (ET 7 [b; (0 + z)]) (ET 69 [i; (0 + z); c; j; k]))))).
Definition k_iptr_X3A_2 (z i b c j k : nat) : ex := (EAdd (k_iptr_X3A_1 (0 + z) i b c j k) (EScale (1) 8 (ESum (0 + z) 0 (ESum (1 + z) 0 (EMul (ET 28 [(0 + z); (1 + z); j; k]) (ET 69 [i; b; c; (0 + z); (1 + z)])))))).
Definition k_iptr_X3A_3 (z i b c j k : nat) : ex := (EAdd (k_iptr_X3A_2 (0 + z) i b c j k) (EScale (1) 24 (ESum (0 + z) 1 (ESum (1 + z) 1 (EMul (ET 41 [b; c; (0 + z); (1 + z)]) (ET 69 [i; (0 + z); (1 + z); j; k])))))).
Definition k_iptr_X3A_4 (z i b c j k : nat) : ex := (EAdd (k_iptr_X3A_3 (0 + z) i b c j k) (EScale (1) 2 (ESum (0 + z) 0 (ESum (1 + z) 1 (EMul (ET 22 [b; (0 + z); j; (1 + z)]) (ET 69 [i; (1 + z); c; (0 + z); k])))))).
Definition k_iptr_X3A_5 (z i b c j k : nat) : ex := (EAdd (k_iptr_X3A_4 (0 + z) i b c j k) (EScale (1) 2 (ESum (0 + z) 2 (ESum (1 + z) 3 (EMul (ET 23 [b; (0 + z); j; (1 + z)]) (ET 70 [i; c; (1 + z); k; (0 + z)])))))).
Definition k_iptr_X3A_6 (z i b c j k : nat) : ex := (ESub (k_iptr_X3A_5 (0 + z) i b c j k) (EScale (1) 2 (ESum (0 + z) 0 (EMul (ET 29 [c; (0 + z); k; j]) (ET 67 [i; b; (0 + z)]))))).
Definition k_iptr_X3A_7 (z i b c j k : nat) : ex := (EAdd (k_iptr_X3A_6 (0 + z) i b c j k) (EScale (1) 4 (ESum (0 + z) 1 (EMul (ET 30 [c; b; k; (0 + z)]) (ET 67 [i; (0 + z); j]))))).
Definition k_iptr_X3A_8 (z i b c j k : nat) : ex := (ESub (k_iptr_X3A_7 (0 + z) i b c j k) (EScale (1) 4 (ESum (0 + z) 0 (EMul (k_iptr_X_aa_ooo_1 (1 + z) i (0 + z) j) (ET 10 [b; c; (0 + z); k]))))).
Definition k_iptr_X3A_9 (z i b c j k : nat) : ex := (EAdd (k_iptr_X3A_8 (0 + z) i b c j k) (EScale (1) 2 (ESum (0 + z) 1 (EMul (k_iptr_X_aa_ovv (1 + z) i b (0 + z)) (ET 10 [(0 + z); c; j; k]))))).
Definition k_iptr_X3A_10 (z i b c j k : nat) : ex := (ESub (k_iptr_X3A_9 (0 + z) i b c j k) (EAdd (k_iptr_X3A_9 (0 + z) j b c i k) (k_iptr_X3A_9 (0 + z) k b c j i))).
Definition k_iptr_X3A_11 (z i b c j k : nat) : ex := (ESub (k_iptr_X3A_10 (0 + z) i b c j k) (k_iptr_X3A_10 (0 + z) i b c k j)).
Definition k_iptr_X3A_12 (z i b c j k : nat) : ex := (ESub (k_iptr_X3A_11 (0 + z) i b c j k) (k_iptr_X3A_11 (0 + z) i c b j k)).
Definition k_iptr_X3B (z i b c j k : nat) : ex := (EOpp (ESum (0 + z) 0 (EMul (ET 12 [(0 + z); j]) (ET 70 [i; b; c; (0 + z); k])))).
Definition k_iptr_X3B_1 (z i b c j k : nat) : ex := (ESub (k_iptr_X3B (0 + z) i b c j k) (EScale (1) 2 (ESum (0 + z) 2 (EMul (ET 19 [(0 + z); k]) (ET 70 [i; b; c; j; (0 + z)]))))).
Definition k_iptr_X3B_2 (z i b c j k : nat) : ex := (EAdd (k_iptr_X3B_1 (0 + z) i b c j k) (EScale (1) 2 (ESum (0 + z) 1 (EMul (ET 7 [b; (0 + z)]) (ET 70 [i; (0 + z); c; j; k]))))).
Definition k_iptr_X3B_3 (z i b c j k : nat) : ex := (EAdd (k_iptr_X3B_2 (0 + z) i b c j k) (EScale (1) 2 (ESum (0 + z) 3 (EMul (ET 15 [c; (0 + z)]) (ET 70 [i; b; (0 + z); j; k]))))).
Definition k_iptr_X3B_4 (z i b c j k : nat) : ex := (EAdd (k_iptr_X3B_3 (0 + z) i b c j k) (ESum (0 + z) 0 (ESum (1 + z) 2 (EMul (ET 34 [(0 + z); (1 + z); j; k]) (ET 70 [i; b; c; (0 + z); (1 + z)]))))).
Definition k_iptr_X3B_5 (z i b c j k : nat) : ex := (EAdd (k_iptr_X3B_4 (0 + z) i b c j k) (EScale (1) 4 (ESum (0 + z) 0 (ESum (1 + z) 0 (EMul (ET 28 [(0 + z); (1 + z); i; j]) (ET 70 [(0 + z); b; c; (1 + z); k])))))).
Definition k_iptr_X3B_6 (z i b c j k : nat) : ex := (EAdd (k_iptr_X3B_5 (0 + z) i b c j k) (EScale (1) 2 (ESum (0 + z) 1 (ESum (1 + z) 3 (EMul (ET 43 [b; c; (0 + z); (1 + z)]) (ET 70 [i; (0 + z); (1 + z); j; k])))))).
Definition k_iptr_X3B_7 (z i b c j k : nat) : ex := (EAdd (k_iptr_X3B_6 (0 + z) i b c j k) (EScale (1) 2 (ESum (0 + z) 0 (ESum (1 + z) 1 (EMul (ET 26 [(0 + z); c; (1 + z); k]) (ET 69 [i; b; (1 + z); j; (0 + z)])))))).
Definition k_iptr_X3B_8 (z i b c j k : nat) : ex := (EAdd (k_iptr_X3B_7 (0 + z) i b c j k) (EScale (1) 2 (ESum (0 + z) 2 (ESum (1 + z) 3 (EMul (ET 25 [c; (0 + z); k; (1 + z)]) (ET 70 [i; b; (1 + z); j; (0 + z)])))))).
Definition k_iptr_X3B_9 (z i b c j k : nat) : ex := (EAdd (k_iptr_X3B_8 (0 + z) i b c j k) (ESum (0 + z) 0 (ESum (1 + z) 1 (EMul (ET 22 [b; (0 + z); j; (1 + z)]) (ET 70 [i; (1 + z); c; (0 + z); k]))))).
Definition k_iptr_X3B_10 (z i b c j k : nat) : ex := (EAdd (k_iptr_X3B_9 (0 + z) i b c j k) (ESum (0 + z) 2 (ESum (1 + z) 3 (EMul (ET 23 [b; (0 + z); j; (1 + z)]) (ET 71 [i; (1 + z); c; (0 + z); k]))))).
Definition k_iptr_X3B_11 (z i b c j k : nat) : ex := (ESub (k_iptr_X3B_10 (0 + z) i b c j k) (ESum (0 + z) 0 (ESum (1 + z) 3 (EMul (ET 35 [(0 + z); c; j; (1 + z)]) (ET 70 [i; b; (1 + z); (0 + z); k]))))).
Definition k_iptr_X3B_12 (z i b c j k : nat) : ex := (ESub (k_iptr_X3B_11 (0 + z) i b c j k) (EScale (1) 2 (ESum (0 + z) 2 (ESum (1 + z) 1 (EMul (ET 36 [b; (0 + z); (1 + z); k]) (ET 70 [i; (1 + z); c; j; (0 + z)])))))).
Definition k_iptr_X3B_13 (z i b c j k : nat) : ex := (ESub (k_iptr_X3B_12 (0 + z) i b c j k) (ESum (0 + z) 0 (EMul (ET 37 [(0 + z); c; j; k]) (ET 67 [i; b; (0 + z)])))).
Definition k_iptr_X3B_14 (z i b c j k : nat) : ex := (ESub (k_iptr_X3B_13 (0 + z) i b c j k) (EScale (1) 2 (ESum (0 + z) 0 (EMul (ET 29 [b; (0 + z); j; i]) (ET 68 [(0 + z); c; k]))))).
Definition k_iptr_X3B_15 (z i b c j k : nat) : ex := (ESub (k_iptr_X3B_14 (0 + z) i b c j k) (ESum (0 + z) 2 (EMul (ET 38 [b; (0 + z); j; k]) (ET 68 [i; c; (0 + z)])))).
Definition k_iptr_X3B_16 (z i b c j k : nat) : ex := (EAdd (k_iptr_X3B_15 (0 + z) i b c j k) (ESum (0 + z) 3 (EMul (ET 40 [b; c; j; (0 + z)]) (ET 68 [i; (0 + z); k])))).
Definition k_iptr_X3B_17 (z i b c j k : nat) : ex := (EAdd (k_iptr_X3B_16 (0 + z) i b c j k) (EScale (1) 2 (ESum (0 + z) 1 (EMul (ET 39 [b; c; (0 + z); k]) (ET 67 [i; (0 + z); j]))))).
Definition k_iptr_X3B_18 (z i b c j k : nat) : ex := (EAdd (k_iptr_X3B_17 (0 + z) i b c j k) (EScale (1) 2 (ESum (0 + z) 1 (EMul (k_iptr_X_ab_vvo (1 + z) (0 + z) c k) (ET 10 [(0 + z); b; i; j]))))).
Definition k_iptr_X3B_19 (z i b c j k : nat) : ex := (ESub (k_iptr_X3B_18 (0 + z) i b c j k) (EScale (1) 2 (ESum (0 + z) 0 (EMul (k_iptr_X_aa_ooo_1 (1 + z) i (0 + z) j) (ET 11 [b; c; (0 + z); k]))))).
Definition k_iptr_X3B_20 (z i b c j k : nat) : ex := (ESub (k_iptr_X3B_19 (0 + z) i b c j k) (ESum (0 + z) 2 (EMul (k_iptr_X_ab_ooo (1 + z) i (0 + z) k) (ET 11 [b; c; j; (0 + z)])))).
Definition k_iptr_X3B_21 (z i b c j k : nat) : ex := (EAdd (k_iptr_X3B_20 (0 + z) i b c j k) (ESum (0 + z) 3 (EMul (k_iptr_X_ab_ovv (1 + z) i c (0 + z)) (ET 11 [b; (0 + z); j; k])))).
Definition k_iptr_X3B_22 (z i b c j k : nat) : ex := (EAdd (k_iptr_X3B_21 (0 + z) i b c j k) (ESum (0 + z) 1 (EMul (k_iptr_X_aa_ovv (1 + z) i b (0 + z)) (ET 11 [(0 + z); c; j; k])))).
Definition k_iptr_X3B_23 (z i b c j k : nat) : ex := (ESub (k_iptr_X3B_22 (0 + z) i b c j k) (k_iptr_X3B_22 (0 + z) j b c i k)).
Definition k_iptr_X3C (z i b c j k : nat) : ex := (EScale (-1) 2 (ESum (0 + z) 2 (EMul (ET 19 [(0 + z); j]) (ET 71 [i; b; c; (0 + z); k])))).
Definition k_iptr_X3C_1 (z i b c j k : nat) : ex := (ESub (k_iptr_X3C (0 + z) i b c j k) (EScale (1) 4 (ESum (0 + z) 0 (EMul (ET 12 [(0 + z); i]) (ET 71 [(0 + z); b; c; j; k]))))).
Definition k_iptr_X3C_2 (z i b c j k : nat) : ex := (EAdd (k_iptr_X3C_1 (0 + z) i b c j k) (EScale (1) 2 (ESum (0 + z) 3 (EMul (ET 15 [b; (0 + z)]) (ET 71 [i; (0 + z); c; j; k]))))).
Definition k_iptr_X3C_3 (z i b c j k : nat) : ex := (EAdd (k_iptr_X3C_2 (0 + z) i b c j k) (EScale (1) 8 (ESum (0 + z) 2 (ESum (1 + z) 2 (EMul (ET 31 [(0 + z); (1 + z); j; k]) (ET 71 [i; b; c; (0 + z); (1 + z)])))))).
Definition k_iptr_X3C_4 (z i b c j k : nat) : ex := (EAdd (k_iptr_X3C_3 (0 + z) i b c j k) (EScale (1) 2 (ESum (0 + z) 0 (ESum (1 + z) 2 (EMul (ET 34 [(0 + z); (1 + z); i; j]) (ET 71 [(0 + z); b; c; (1 + z); k])))))).
Definition k_iptr_X3C_5 (z i b c j k : nat) : ex := (EAdd (k_iptr_X3C_4 (0 + z) i b c j k) (EScale (1) 8 (ESum (0 + z) 3 (ESum (1 + z) 3 (EMul (ET 45 [b; c; (0 + z); (1 + z)]) (ET 71 [i; (0 + z); (1 + z); j; k])))))).
Definition k_iptr_X3C_6 (z i b c j k : nat) : ex := (EAdd (k_iptr_X3C_5 (0 + z) i b c j k) (ESum (0 + z) 0 (ESum (1 + z) 1 (EMul (ET 26 [(0 + z); b; (1 + z); j]) (ET 70 [i; (1 + z); c; (0 + z); k]))))).
Definition k_iptr_X3C_7 (z i b c j k : nat) : ex := (EAdd (k_iptr_X3C_6 (0 + z) i b c j k) (ESum (0 + z) 2 (ESum (1 + z) 3 (EMul (ET 25 [b; (0 + z); j; (1 + z)]) (ET 71 [i; (1 + z); c; (0 + z); k]))))).
Definition k_iptr_X3C_8 (z i b c j k : nat) : ex := (ESub (k_iptr_X3C_7 (0 + z) i b c j k) (EScale (1) 2 (ESum (0 + z) 0 (ESum (1 + z) 3 (EMul (ET 35 [(0 + z); b; i; (1 + z)]) (ET 71 [(0 + z); (1 + z); c; j; k])))))).
Definition k_iptr_X3C_9 (z i b c j k : nat) : ex := (ESub (k_iptr_X3C_8 (0 + z) i b c j k) (ESum (0 + z) 0 (EMul (ET 37 [(0 + z); c; i; k]) (ET 68 [(0 + z); b; j])))).
Definition k_iptr_X3C_10 (z i b c j k : nat) : ex := (ESub (k_iptr_X3C_9 (0 + z) i b c j k) (EScale (1) 2 (ESum (0 + z) 2 (EMul (ET 32 [c; (0 + z); k; j]) (ET 68 [i; b; (0 + z)]))))).
Definition k_iptr_X3C_11 (z i b c j k : nat) : ex := (EAdd (k_iptr_X3C_10 (0 + z) i b c j k) (EScale (1) 2 (ESum (0 + z) 3 (EMul (ET 33 [c; b; k; (0 + z)]) (ET 68 [i; (0 + z); j]))))).
Definition k_iptr_X3C_12 (z i b c j k : nat) : ex := (ESub (k_iptr_X3C_11 (0 + z) i b c j k) (EScale (1) 2 (ESum (0 + z) 2 (EMul (k_iptr_X_ab_ooo (1 + z) i (0 + z) j) (ET 18 [b; c; (0 + z); k]))))).
Definition k_iptr_X3C_13 (z i b c j k : nat) : ex := (EAdd (k_iptr_X3C_12 (0 + z) i b c j k) (EScale (1) 2 (ESum (0 + z) 3 (EMul (k_iptr_X_ab_ovv (1 + z) i b (0 + z)) (ET 18 [(0 + z); c; j; k]))))).
Definition k_iptr_X3C_14 (z i b c j k : nat) : ex := (EAdd (k_iptr_X3C_13 (0 + z) i b c j k) (ESum (0 + z) 1 (EMul (k_iptr_X_ab_vvo (1 + z) (0 + z) b j) (ET 11 [(0 + z); c; i; k])))).
Definition k_iptr_X3C_15 (z i b c j k : nat) : ex := (ESub (k_iptr_X3C_14 (0 + z) i b c j k) (k_iptr_X3C_14 (0 + z) i c b j k)).
Definition k_iptr_X3C_16 (z i b c j k : nat) : ex := (ESub (k_iptr_X3C_15 (0 + z) i b c j k) (k_iptr_X3C_15 (0 + z) i b c k j)).
Section S_ipt.
Variables (d : dims) (X X' : ints) (T T' : amps) (Y : iptv).
Hypothesis (HX : ints_agree d X X') (Ta : forall a b i j, x_aa T a b i j = x_aa T' a b i j) (Tb : forall a b i j, x_ab T a b i j = x_ab T' a b i j) (Tc : forall a b i j, x_bb T a b i j = x_bb T' a b i j).
Lemma ipt_same_a p : p < noa d -> ipt_a (ipt_HR d X T Y) p = ipt_a (ipt_HR d X' T' Y) p.
Proof. intros. apply (skel d X X' T T' [ap1 (ipt_a Y); ap3 (ipt_aa Y); ap3 (ipt_ab Y); ap5 (ipt_aaa Y); ap5 (ipt_aab Y); ap5 (ipt_abb Y)] [(0, 0)] (k_iptr_X1A_7 10 0) (venv [p]) HX Ta Tb Tc); [cbn [length]; lia|vm_compute; reflexivity|rng6]. Qed.
Lemma ipt_same_aa p q r : p < noa d -> q < nua d -> r < noa d -> ipt_aa (ipt_HR d X T Y) p q r = ipt_aa (ipt_HR d X' T' Y) p q r.
Proof. intros. apply (skel d X X' T T' [ap1 (ipt_a Y); ap3 (ipt_aa Y); ap3 (ipt_ab Y); ap5 (ipt_aaa Y); ap5 (ipt_aab Y); ap5 (ipt_abb Y)] [(0, 0); (1, 1); (2, 0)] (k_iptr_X2A_13 10 0 1 2) (venv [p; q; r]) HX Ta Tb Tc); [cbn [length]; lia|vm_compute; reflexivity|rng6]. Qed.
Lemma ipt_same_ab p q r : p < noa d -> q < nub d -> r < nob d -> ipt_ab (ipt_HR d X T Y) p q r = ipt_ab (ipt_HR d X' T' Y) p q r.
Proof. intros. apply (skel d X X' T T' [ap1 (ipt_a Y); ap3 (ipt_aa Y); ap3 (ipt_ab Y); ap5 (ipt_aaa Y); ap5 (ipt_aab Y); ap5 (ipt_abb Y)] [(0, 0); (1, 3); (2, 2)] (k_iptr_X2B_16 10 0 1 2) (venv [p; q; r]) HX Ta Tb Tc); [cbn [length]; lia|vm_compute; reflexivity|rng6]. Qed.
Lemma ipt_same_aaa p q r s t : p < noa d -> q < nua d -> r < nua d -> s < noa d -> t < noa d -> ipt_aaa (ipt_HR d X T Y) p q r s t = ipt_aaa (ipt_HR d X' T' Y) p q r s t.
Proof. intros. apply (skel d X X' T T' [ap1 (ipt_a Y); ap3 (ipt_aa Y); ap3 (ipt_ab Y); ap5 (ipt_aaa Y); ap5 (ipt_aab Y); ap5 (ipt_abb Y)] [(0, 0); (1, 1); (2, 1); (3, 0); (4, 0)] (k_iptr_X3A_12 10 0 1 2 3 4) (venv [p; q; r; s; t]) HX Ta Tb Tc); [cbn [length]; lia|vm_compute; reflexivity|rng6]. Qed.
Lemma ipt_same_aab p q r s t : p < noa d -> q < nua d -> r < nub d -> s < noa d -> t < nob d -> ipt_aab (ipt_HR d X T Y) p q r s t = ipt_aab (ipt_HR d X' T' Y) p q r s t.
Proof. intros. apply (skel d X X' T T' [ap1 (ipt_a Y); ap3 (ipt_aa Y); ap3 (ipt_ab Y); ap5 (ipt_aaa Y); ap5 (ipt_aab Y); ap5 (ipt_abb Y)] [(0, 0); (1, 1); (2, 3); (3, 0); (4, 2)] (k_iptr_X3B_23 10 0 1 2 3 4) (venv [p; q; r; s; t]) HX Ta Tb Tc); [cbn [length]; lia|vm_compute; reflexivity|rng6]. Qed.
Lemma ipt_same_abb p q r s t : p < noa d -> q < nub d -> r < nub d -> s < nob d -> t < nob d -> ipt_abb (ipt_HR d X T Y) p q r s t = ipt_abb (ipt_HR d X' T' Y) p q r s t.
Proof. intros. apply (skel d X X' T T' [ap1 (ipt_a Y); ap3 (ipt_aa Y); ap3 (ipt_ab Y); ap5 (ipt_aaa Y); ap5 (ipt_aab Y); ap5 (ipt_abb Y)] [(0, 0); (1, 3); (2, 3); (3, 2); (4, 2)] (k_iptr_X3C_16 10 0 1 2 3 4) (venv [p; q; r; s; t]) HX Ta Tb Tc); [cbn [length]; lia|vm_compute; reflexivity|rng6]. Qed.
Lemma ipt_root_same w : ipt_root d (ipt_HR d X T Y) Y w <-> ipt_root d (ipt_HR d X' T' Y) Y w.
Proof.
  unfold ipt_root. split; intros G; decompose [and] G; repeat match goal with |- _ /\ _ => split end; intros; first [rewrite ipt_same_a by assumption | rewrite ipt_same_aa by assumption | rewrite ipt_same_ab by assumption | rewrite ipt_same_aaa by assumption | rewrite ipt_same_aab by assumption | rewrite ipt_same_abb by assumption | rewrite <- ipt_same_a by assumption | rewrite <- ipt_same_aa by assumption | rewrite <- ipt_same_ab by assumption | rewrite <- ipt_same_aaa by assumption | rewrite <- ipt_same_aab by assumption | rewrite <- ipt_same_abb by assumption]; auto.
Qed.
End S_ipt.
Definition k_eatr_X_aa_voo (z a m j : nat) : ex := (ESub (EAdd (EAdd (EAdd (EAdd (EScale (1) 2 (ESum (0 + z) 0 (ESum (1 + z) 1 (ESum (2 + z) 1 (EMul (ET 1 [m; (0 + z); (1 + z); (2 + z)]) (ET 69 [a; (1 + z); (2 + z); j; (0 + z)])))))) (ESum (0 + z) 2 (ESum (1 + z) 1 (ESum (2 + z) 3 (EMul (ET 3 [m; (0 + z); (1 + z); (2 + z)]) (ET 70 [a; (1 + z); (2 + z); j; (0 + z)])))))) (ESum (0 + z) 0 (ESum (1 + z) 1 (EMul (ET 13 [m; (0 + z); j; (1 + z)]) (ET 67 [a; (1 + z); (0 + z)]))))) (ESum (0 + z) 2 (ESum (1 + z) 3 (EMul (ET 14 [m; (0 + z); j; (1 + z)]) (ET 68 [a; (1 + z); (0 + z)]))))) (EScale (1) 2 (ESum (0 + z) 1 (ESum (1 + z) 1 (EMul (ET 8 [a; m; (0 + z); (1 + z)]) (ET 67 [(0 + z); (1 + z); j])))))) (ESum (0 + z) 1 (EMul (ET 22 [a; m; j; (0 + z)]) (ET 66 [(0 + z)])))).
Definition k_eatr_X_ab_ovo (z m b j : nat) : ex := (EAdd (EAdd (ESub (EAdd (EScale (1) 2 (ESum (0 + z) 0 (ESum (1 + z) 1 (ESum (2 + z) 1 (EMul (ET 1 [m; (0 + z); (1 + z); (2 + z)]) (ET 70 [(1 + z); (2 + z); b; (0 + z); j])))))) (ESum (0 + z) 2 (ESum (1 + z) 1 (ESum (2 + z) 3 (EMul (ET 3 [m; (0 + z); (1 + z); (2 + z)]) (ET 71 [(1 + z); (2 + z); b; (0 + z); j])))))) (ESum (0 + z) 2 (ESum (1 + z) 1 (EMul (ET 21 [m; (0 + z); (1 + z); j]) (ET 68 [(1 + z); b; (0 + z)]))))) (ESum (0 + z) 1 (ESum (1 + z) 3 (EMul (ET 17 [m; b; (0 + z); (1 + z)]) (ET 68 [(0 + z); (1 + z); j]))))) (ESum (0 + z) 1 (EMul (ET 26 [m; b; (0 + z); j]) (ET 66 [(0 + z)])))).
Definition k_eatr_X_ab_voo (z a m j : nat) : ex := (EAdd (EAdd (EAdd (EAdd (EAdd (ESum (0 + z) 0 (ESum (1 + z) 1 (ESum (2 + z) 3 (EMul (ET 3 [(0 + z); m; (1 + z); (2 + z)]) (ET 70 [a; (1 + z); (2 + z); (0 + z); j]))))) (EScale (1) 2 (ESum (0 + z) 2 (ESum (1 + z) 3 (ESum (2 + z) 3 (EMul (ET 6 [m; (0 + z); (1 + z); (2 + z)]) (ET 71 [a; (1 + z); (2 + z); j; (0 + z)]))))))) (ESum (0 + z) 0 (ESum (1 + z) 1 (EMul (ET 21 [(0 + z); m; (1 + z); j]) (ET 67 [a; (1 + z); (0 + z)]))))) (ESum (0 + z) 2 (ESum (1 + z) 3 (EMul (ET 20 [m; (0 + z); j; (1 + z)]) (ET 68 [a; (1 + z); (0 + z)]))))) (ESum (0 + z) 1 (ESum (1 + z) 3 (EMul (ET 9 [a; m; (0 + z); (1 + z)]) (ET 68 [(0 + z); (1 + z); j]))))) (ESum (0 + z) 1 (EMul (ET 36 [a; m; (0 + z); j]) (ET 66 [(0 + z)])))).
Definition k_eatr_X_aa_vvv (z a b e : nat) : ex := (EAdd (EAdd (EAdd (ESub (EScale (-1) 4 (ESum (0 + z) 0 (ESum (1 + z) 0 (ESum (2 + z) 1 (EMul (ET 1 [(0 + z); (1 + z); e; (2 + z)]) (ET 69 [a; b; (2 + z); (0 + z); (1 + z)])))))) (EScale (1) 2 (ESum (0 + z) 0 (ESum (1 + z) 2 (ESum (2 + z) 3 (EMul (ET 3 [(0 + z); (1 + z); e; (2 + z)]) (ET 70 [a; b; (2 + z); (0 + z); (1 + z)]))))))) (ESum (0 + z) 0 (ESum (1 + z) 1 (EMul (ET 8 [b; (0 + z); e; (1 + z)]) (ET 67 [a; (1 + z); (0 + z)]))))) (ESum (0 + z) 2 (ESum (1 + z) 3 (EMul (ET 9 [b; (0 + z); e; (1 + z)]) (ET 68 [a; (1 + z); (0 + z)]))))) (EScale (1) 2 (ESum (0 + z) 1 (EMul (ET 41 [a; b; (0 + z); e]) (ET 66 [(0 + z)]))))).
Definition k_eatr_X_aa_vvv_1 (z a b e : nat) : ex := (ESub (k_eatr_X_aa_vvv (0 + z) a b e) (k_eatr_X_aa_vvv (0 + z) b a e)).
Definition k_eatr_X_ab_vvv (z a b e : nat) : ex := (EAdd (ESub (EAdd (EAdd (ESub (EOpp (ESum (0 + z) 0 (ESum (1 + z) 2 (ESum (2 + z) 1 (EMul (ET 3 [(0 + z); (1 + z); (2 + z); e]) (ET 70 [a; (2 + z); b; (0 + z); (1 + z)])))))) (EScale (1) 2 (ESum (0 + z) 2 (ESum (1 + z) 2 (ESum (2 + z) 3 (EMul (ET 6 [(0 + z); (1 + z); e; (2 + z)]) (ET 71 [a; b; (2 + z); (0 + z); (1 + z)]))))))) (ESum (0 + z) 0 (ESum (1 + z) 1 (EMul (ET 17 [(0 + z); b; (1 + z); e]) (ET 67 [a; (1 + z); (0 + z)]))))) (ESum (0 + z) 2 (ESum (1 + z) 3 (EMul (ET 16 [b; (0 + z); e; (1 + z)]) (ET 68 [a; (1 + z); (0 + z)]))))) (ESum (0 + z) 2 (ESum (1 + z) 1 (EMul (ET 9 [a; (0 + z); (1 + z); e]) (ET 68 [(1 + z); b; (0 + z)]))))) (ESum (0 + z) 1 (EMul (ET 43 [a; b; (0 + z); e]) (ET 66 [(0 + z)])))).
Definition k_eatr_X1A (z a : nat) : ex := (ESum (0 + z) 1 (EMul (ET 7 [a; (0 + z)]) (ET 66 [(0 + z)]))).
Definition k_eatr_X1A_1 (z a : nat) : ex := (EAdd (k_eatr_X1A (0 + z) a) (EScale (1) 2 (ESum (0 + z) 0 (ESum (1 + z) 1 (ESum (2 + z) 1 (EMul (ET 8 [a; (0 + z); (1 + z); (2 + z)]) (ET 67 [(1 + z); (2 + z); (0 + z)]))))))).
Definition k_eatr_X1A_2 (z a : nat) : ex := (EAdd (k_eatr_X1A_1 (0 + z) a) (ESum (0 + z) 2 (ESum (1 + z) 1 (ESum (2 + z) 3 (EMul (ET 9 [a; (0 + z); (1 + z); (2 + z)]) (ET 68 [(1 + z); (2 + z); (0 + z)])))))).
Definition k_eatr_X1A_3 (z a : nat) : ex := (EAdd (k_eatr_X1A_2 (0 + z) a) (ESum (0 + z) 0 (ESum (1 + z) 1 (EMul (ET 0 [(0 + z); (1 + z)]) (ET 67 [a; (1 + z); (0 + z)]))))).
Definition k_eatr_X1A_4 (z a : nat) : ex := (EAdd (k_eatr_X1A_3 (0 + z) a) (ESum (0 + z) 2 (ESum (1 + z) 3 (EMul (ET 5 [(0 + z); (1 + z)]) (ET 68 [a; (1 + z); (0 + z)]))))).
Definition k_eatr_X1A_5 (z a : nat) : ex := (EAdd (k_eatr_X1A_4 (0 + z) a) (EScale (1) 4 (ESum (0 + z) 0 (ESum (1 + z) 0 (ESum (2 + z) 1 (ESum (3 + z) 1 (EMul (ET 1 [(0 + z); (1 + z); (2 + z); (3 + z)]) (ET 69 [a; (2 + z); (3 + z); (0 + z); (1 + z)])))))))).
Definition k_eatr_X1A_6 (z a : nat) : ex := (EAdd (k_eatr_X1A_5 (0 + z) a) (ESum (0 + z) 0 (ESum (1 + z) 2 (ESum (2 + z) 1 (ESum (3 + z) 3 (EMul (ET 3 [(0 + z); (1 + z); (2 + z); (3 + z)]) (ET 70 [a; (2 + z); (3 + z); (0 + z); (1 + z)]))))))).
Definition k_eatr_X1A_7 (z a : nat) : ex := (EAdd (k_eatr_X1A_6 (0 + z) a) (EScale (1) 4 (ESum (0 + z) 2 (ESum (1 + z) 2 (ESum (2 + z) 3 (ESum (3 + z) 3 (EMul (ET 6 [(0 + z); (1 + z); (2 + z); (3 + z)]) (ET 71 [a; (2 + z); (3 + z); (0 + z); (1 + z)])))))))).
Definition k_eatr_X2A (z a b j : nat) : ex := (EScale (1) 2 (ESum (0 + z) 1 (EMul (ET 30 [b; a; j; (0 + z)]) (ET 66 [(0 + z)])))).
Definition k_eatr_X2A_1 (z a b j : nat) : ex := (ESub (k_eatr_X2A (0 + z) a b j) (EScale (1) 2 (ESum (0 + z) 0 (EMul (ET 12 [(0 + z); j]) (ET 67 [a; b; (0 + z)]))))).
Definition k_eatr_X2A_2 (z a b j : nat) : ex := (EAdd (k_eatr_X2A_1 (0 + z) a b j) (EScale (1) 4 (ESum (0 + z) 1 (ESum (1 + z) 1 (EMul (ET 41 [a; b; (0 + z); (1 + z)]) (ET 67 [(0 + z); (1 + z); j])))))).
Definition k_eatr_I1 (z m : nat) : ex := (EAdd (EScale (1) 2 (ESum (0 + z) 0 (ESum (1 + z) 1 (ESum (2 + z) 1 (EMul (ET 1 [m; (0 + z); (1 + z); (2 + z)]) (ET 67 [(1 + z); (2 + z); (0 + z)])))))) (ESum (0 + z) 2 (ESum (1 + z) 1 (ESum (2 + z) 3 (EMul (ET 3 [m; (0 + z); (1 + z); (2 + z)]) (ET 68 [(1 + z); (2 + z); (0 + z)])))))).
Definition k_eatr_X2A_3 (z a b j : nat) : ex := (ESub (k_eatr_X2A_2 (0 + z) a b j) (EScale (1) 2 (ESum (0 + z) 0 (EMul (k_eatr_I1 (1 + z) (0 + z)) (ET 10 [a; b; (0 + z); j]))))).
Definition k_eatr_X2A_4 (z a b j : nat) : ex := (EAdd (k_eatr_X2A_3 (0 + z) a b j) (ESum (0 + z) 1 (EMul (ET 7 [a; (0 + z)]) (ET 67 [(0 + z); b; j])))).
Definition k_eatr_X2A_5 (z a b j : nat) : ex := (EAdd (k_eatr_X2A_4 (0 + z) a b j) (ESum (0 + z) 0 (ESum (1 + z) 1 (EMul (ET 22 [b; (0 + z); j; (1 + z)]) (ET 67 [a; (1 + z); (0 + z)]))))).
Definition k_eatr_X2A_6 (z a b j : nat) : ex := (EAdd (k_eatr_X2A_5 (0 + z) a b j) (ESum (0 + z) 2 (ESum (1 + z) 3 (EMul (ET 23 [b; (0 + z); j; (1 + z)]) (ET 68 [a; (1 + z); (0 + z)]))))).
Definition k_eatr_X2A_7 (z a b j : nat) : ex := (EAdd (k_eatr_X2A_6 (0 + z) a b j) (EScale (1) 2 (ESum (0 + z) 0 (ESum (1 + z) 1 (EMul (ET 0 [(0 + z); (1 + z)]) (ET 69 [a; b; (1 + z); j; (0 + z)])))))).
Definition k_eatr_X2A_8 (z a b j : nat) : ex := (EAdd (k_eatr_X2A_7 (0 + z) a b j) (EScale (1) 2 (ESum (0 + z) 2 (ESum (1 + z) 3 (EMul (ET 5 [(0 + z); (1 + z)]) (ET 70 [a; b; (1 + z); j; (0 + z)])))))).
Definition k_eatr_X2A_9 (z a b j : nat) : ex := (ESub (k_eatr_X2A_8 (0 + z) a b j) (EScale (1) 4 (ESum (0 + z) 0 (ESum (1 + z) 0 (ESum (2 + z) 1 (EMul (ET 13 [(0 + z); (1 + z); j; (2 + z)]) (ET 69 [a; b; (2 + z); (0 + z); (1 + z)]))))))).
Definition k_eatr_X2A_10 (z a b j : nat) : ex := (ESub (k_eatr_X2A_9 (0 + z) a b j) (EScale (1) 2 (ESum (0 + z) 0 (ESum (1 + z) 2 (ESum (2 + z) 3 (EMul (ET 14 [(0 + z); (1 + z); j; (2 + z)]) (ET 70 [a; b; (2 + z); (0 + z); (1 + z)]))))))).
Definition k_eatr_X2A_11 (z a b j : nat) : ex := (EAdd (k_eatr_X2A_10 (0 + z) a b j) (EScale (1) 2 (ESum (0 + z) 0 (ESum (1 + z) 1 (ESum (2 + z) 1 (EMul (ET 8 [b; (0 + z); (1 + z); (2 + z)]) (ET 69 [a; (1 + z); (2 + z); j; (0 + z)]))))))).
Definition k_eatr_X2A_12 (z a b j : nat) : ex := (EAdd (k_eatr_X2A_11 (0 + z) a b j) (ESum (0 + z) 2 (ESum (1 + z) 1 (ESum (2 + z) 3 (EMul (ET 9 [b; (0 + z); (1 + z); (2 + z)]) (ET 70 [a; (1 + z); (2 + z); j; (0 + z)])))))).
Definition k_eatr_X2A_13 (z a b j : nat) : ex := (ESub (k_eatr_X2A_12 (0 + z) a b j) (k_eatr_X2A_12 (0 + z) b a j)).
Definition k_eatr_X2B (z a b j : nat) : ex := (ESum (0 + z) 1 (EMul (ET 39 [a; b; (0 + z); j]) (ET 66 [(0 + z)]))).
Definition k_eatr_X2B_1 (z a b j : nat) : ex := (EAdd (k_eatr_X2B (0 + z) a b j) (ESum (0 + z) 1 (EMul (ET 7 [a; (0 + z)]) (ET 68 [(0 + z); b; j])))).
Definition k_eatr_X2B_2 (z a b j : nat) : ex := (EAdd (k_eatr_X2B_1 (0 + z) a b j) (ESum (0 + z) 3 (EMul (ET 15 [b; (0 + z)]) (ET 68 [a; (0 + z); j])))).
Definition k_eatr_X2B_3 (z a b j : nat) : ex := (ESub (k_eatr_X2B_2 (0 + z) a b j) (ESum (0 + z) 2 (EMul (ET 19 [(0 + z); j]) (ET 68 [a; b; (0 + z)])))).
Definition k_eatr_X2B_4 (z a b j : nat) : ex := (EAdd (k_eatr_X2B_3 (0 + z) a b j) (ESum (0 + z) 0 (ESum (1 + z) 1 (EMul (ET 26 [(0 + z); b; (1 + z); j]) (ET 67 [a; (1 + z); (0 + z)]))))).
Definition k_eatr_X2B_5 (z a b j : nat) : ex := (EAdd (k_eatr_X2B_4 (0 + z) a b j) (ESum (0 + z) 2 (ESum (1 + z) 3 (EMul (ET 25 [b; (0 + z); j; (1 + z)]) (ET 68 [a; (1 + z); (0 + z)]))))).
Definition k_eatr_X2B_6 (z a b j : nat) : ex := (ESub (k_eatr_X2B_5 (0 + z) a b j) (ESum (0 + z) 2 (ESum (1 + z) 1 (EMul (ET 36 [a; (0 + z); (1 + z); j]) (ET 68 [(1 + z); b; (0 + z)]))))).
Definition k_eatr_X2B_7 (z a b j : nat) : ex := (EAdd (k_eatr_X2B_6 (0 + z) a b j) (ESum (0 + z) 1 (ESum (1 + z) 3 (EMul (ET 43 [a; b; (0 + z); (1 + z)]) (ET 68 [(0 + z); (1 + z); j]))))).
Definition k_eatr_I1_1 (z m : nat) : ex := (EAdd (EScale (1) 2 (ESum (0 + z) 0 (ESum (1 + z) 1 (ESum (2 + z) 1 (EMul (ET 1 [m; (0 + z); (1 + z); (2 + z)]) (ET 67 [(1 + z); (2 + z); (0 + z)])))))) (ESum (0 + z) 2 (ESum (1 + z) 1 (ESum (2 + z) 3 (EMul (ET 3 [m; (0 + z); (1 + z); (2 + z)]) (ET 68 [(1 + z); (2 + z); (0 + z)])))))).
Definition k_eatr_X2B_8 (z a b j : nat) : ex := (ESub (k_eatr_X2B_7 (0 + z) a b j) (ESum (0 + z) 0 (EMul (k_eatr_I1_1 (1 + z) (0 + z)) (ET 11 [a; b; (0 + z); j])))).
Definition k_eatr_X2B_9 (z a b j : nat) : ex := (EAdd (k_eatr_X2B_8 (0 + z) a b j) (ESum (0 + z) 0 (ESum (1 + z) 1 (EMul (ET 0 [(0 + z); (1 + z)]) (ET 70 [a; (1 + z); b; (0 + z); j]))))).
Definition k_eatr_X2B_10 (z a b j : nat) : ex := (EAdd (k_eatr_X2B_9 (0 + z) a b j) (ESum (0 + z) 2 (ESum (1 + z) 3 (EMul (ET 5 [(0 + z); (1 + z)]) (ET 71 [a; (1 + z); b; (0 + z); j]))))).
Definition k_eatr_X2B_11 (z a b j : nat) : ex := (ESub (k_eatr_X2B_10 (0 + z) a b j) (ESum (0 + z) 0 (ESum (1 + z) 2 (ESum (2 + z) 1 (EMul (ET 21 [(0 + z); (1 + z); (2 + z); j]) (ET 70 [a; (2 + z); b; (0 + z); (1 + z)])))))).
Definition k_eatr_X2B_12 (z a b j : nat) : ex := (ESub (k_eatr_X2B_11 (0 + z) a b j) (EScale (1) 2 (ESum (0 + z) 2 (ESum (1 + z) 2 (ESum (2 + z) 3 (EMul (ET 20 [(0 + z); (1 + z); j; (2 + z)]) (ET 71 [a; b; (2 + z); (0 + z); (1 + z)]))))))).
Definition k_eatr_X2B_13 (z a b j : nat) : ex := (EAdd (k_eatr_X2B_12 (0 + z) a b j) (ESum (0 + z) 0 (ESum (1 + z) 1 (ESum (2 + z) 3 (EMul (ET 17 [(0 + z); b; (1 + z); (2 + z)]) (ET 70 [a; (1 + z); (2 + z); (0 + z); j])))))).
Definition k_eatr_X2B_14 (z a b j : nat) : ex := (EAdd (k_eatr_X2B_13 (0 + z) a b j) (EScale (1) 2 (ESum (0 + z) 2 (ESum (1 + z) 3 (ESum (2 + z) 3 (EMul (ET 16 [b; (0 + z); (1 + z); (2 + z)]) (ET 71 [a; (1 + z); (2 + z); j; (0 + z)]))))))).
Definition k_eatr_X2B_15 (z a b j : nat) : ex := (EAdd (k_eatr_X2B_14 (0 + z) a b j) (EScale (1) 2 (ESum (0 + z) 0 (ESum (1 + z) 1 (ESum (2 + z) 1 (EMul (ET 8 [a; (0 + z); (1 + z); (2 + z)]) (ET 70 [(1 + z); (2 + z); b; (0 + z); j]))))))).
Definition k_eatr_X2B_16 (z a b j : nat) : ex := (EAdd (k_eatr_X2B_15 (0 + z) a b j) (ESum (0 + z) 2 (ESum (1 + z) 1 (ESum (2 + z) 3 (EMul (ET 9 [a; (0 + z); (1 + z); (2 + z)]) (ET 71 [(1 + z); b; (2 + z); j; (0 + z)])))))).
Definition k_eatr_X3A (z a b c j k : nat) : ex := (EScale (-1) 6 (ESum (0 + z) 0 (EMul (ET 12 [(0 + z); j]) (ET 69 [a; b; c; (0 + z); k])))).
Definition k_eatr_X3A_1 (z a b c j k : nat) : ex := (EAdd (k_eatr_X3A (0 + z) a b c j k) (EScale (1) 4 (ESum (0 + z) 1 (EMul (ET 7 [b; (0 + z)]) (ET 69 [a; (0 + z); c; j; k]))))).
Definition k_eatr_X3A_2 (z a b c j k : nat) : ex := (EAdd (k_eatr_X3A_1 (0 + z) a b c j k) (EScale (1) 8 (ESum (0 + z) 1 (ESum (1 + z) 1 (EMul (ET 41 [a; b; (0 + z); (1 + z)]) (ET 69 [(0 + z); (1 + z); c; j; k])))))).
Definition k_eatr_X3A_3 (z a b c j k : nat) : ex := (EAdd (k_eatr_X3A_2 (0 + z) a b c j k) (EScale (1) 24 (ESum (0 + z) 0 (ESum (1 + z) 0 (EMul (ET 28 [(0 + z); (1 + z); j; k]) (ET 69 [a; b; c; (0 + z); (1 + z)])))))).
Definition k_eatr_X3A_4 (z a b c j k : nat) : ex := (EAdd (k_eatr_X3A_3 (0 + z) a b c j k) (EScale (1) 2 (ESum (0 + z) 0 (ESum (1 + z) 1 (EMul (ET 22 [c; (0 + z); k; (1 + z)]) (ET 69 [a; b; (1 + z); j; (0 + z)])))))).
Definition k_eatr_X3A_5 (z a b c j k : nat) : ex := (EAdd (k_eatr_X3A_4 (0 + z) a b c j k) (EScale (1) 2 (ESum (0 + z) 2 (ESum (1 + z) 3 (EMul (ET 23 [c; (0 + z); k; (1 + z)]) (ET 70 [a; b; (1 + z); j; (0 + z)])))))).
Definition k_eatr_X3A_6 (z a b c j k : nat) : ex := (ESub (k_eatr_X3A_5 (0 + z) a b c j k) (EScale (1) 4 (ESum (0 + z) 0 (EMul (ET 29 [c; (0 + z); k; j]) (ET 67 [a; b; (0 + z)]))))).
Definition k_eatr_X3A_7 (z a b c j k : nat) : ex := (EAdd (k_eatr_X3A_6 (0 + z) a b c j k) (EScale (1) 2 (ESum (0 + z) 1 (EMul (ET 30 [c; b; k; (0 + z)]) (ET 67 [a; (0 + z); j]))))).
Definition k_eatr_X3A_8 (z a b c j k : nat) : ex := (ESub (k_eatr_X3A_7 (0 + z) a b c j k) (EScale (1) 2 (ESum (0 + z) 0 (EMul (k_eatr_X_aa_voo (1 + z) a (0 + z) j) (ET 10 [b; c; (0 + z); k]))))).
Definition k_eatr_X3A_9 (z a b c j k : nat) : ex := (EAdd (k_eatr_X3A_8 (0 + z) a b c j k) (EScale (1) 4 (ESum (0 + z) 1 (EMul (k_eatr_X_aa_vvv_1 (1 + z) a b (0 + z)) (ET 10 [(0 + z); c; j; k]))))).
Definition k_eatr_X3A_10 (z a b c j k : nat) : ex := (ESub (k_eatr_X3A_9 (0 + z) a b c j k) (EAdd (k_eatr_X3A_9 (0 + z) b a c j k) (k_eatr_X3A_9 (0 + z) c b a j k))).
Definition k_eatr_X3A_11 (z a b c j k : nat) : ex := (ESub (k_eatr_X3A_10 (0 + z) a b c j k) (k_eatr_X3A_10 (0 + z) a c b j k)).
Definition k_eatr_X3A_12 (z a b c j k : nat) : ex := (ESub (k_eatr_X3A_11 (0 + z) a b c j k) (k_eatr_X3A_11 (0 + z) a b c k j)).
Definition k_eatr_X3B (z a b c j k : nat) : ex := (EScale (-1) 2 (ESum (0 + z) 0 (EMul (ET 12 [(0 + z); j]) (ET 70 [a; b; c; (0 + z); k])))).
Definition k_eatr_X3B_1 (z a b c j k : nat) : ex := (ESub (k_eatr_X3B (0 + z) a b c j k) (EScale (1) 2 (ESum (0 + z) 2 (EMul (ET 19 [(0 + z); k]) (ET 70 [a; b; c; j; (0 + z)]))))).
Definition k_eatr_X3B_2 (z a b c j k : nat) : ex := (EAdd (k_eatr_X3B_1 (0 + z) a b c j k) (EScale (1) 2 (ESum (0 + z) 3 (EMul (ET 15 [c; (0 + z)]) (ET 70 [a; b; (0 + z); j; k]))))).
Definition k_eatr_X3B_3 (z a b c j k : nat) : ex := (EAdd (k_eatr_X3B_2 (0 + z) a b c j k) (ESum (0 + z) 1 (EMul (ET 7 [b; (0 + z)]) (ET 70 [a; (0 + z); c; j; k])))).
Definition k_eatr_X3B_4 (z a b c j k : nat) : ex := (EAdd (k_eatr_X3B_3 (0 + z) a b c j k) (EScale (1) 2 (ESum (0 + z) 0 (ESum (1 + z) 2 (EMul (ET 34 [(0 + z); (1 + z); j; k]) (ET 70 [a; b; c; (0 + z); (1 + z)])))))).
Definition k_eatr_X3B_5 (z a b c j k : nat) : ex := (EAdd (k_eatr_X3B_4 (0 + z) a b c j k) (EScale (1) 2 (ESum (0 + z) 0 (ESum (1 + z) 1 (EMul (ET 26 [(0 + z); c; (1 + z); k]) (ET 69 [a; b; (1 + z); j; (0 + z)])))))).
Definition k_eatr_X3B_6 (z a b c j k : nat) : ex := (EAdd (k_eatr_X3B_5 (0 + z) a b c j k) (EScale (1) 2 (ESum (0 + z) 2 (ESum (1 + z) 3 (EMul (ET 25 [c; (0 + z); k; (1 + z)]) (ET 70 [a; b; (1 + z); j; (0 + z)])))))).
Definition k_eatr_X3B_7 (z a b c j k : nat) : ex := (EAdd (k_eatr_X3B_6 (0 + z) a b c j k) (ESum (0 + z) 0 (ESum (1 + z) 1 (EMul (ET 22 [b; (0 + z); j; (1 + z)]) (ET 70 [a; (1 + z); c; (0 + z); k]))))).
Definition k_eatr_X3B_8 (z a b c j k : nat) : ex := (ESub (k_eatr_X3B_7 (0 + z) a b c j k) (ESum (0 + z) 2 (ESum (1 + z) 1 (EMul (ET 36 [b; (0 + z); (1 + z); k]) (ET 70 [a; (1 + z); c; j; (0 + z)]))))).
Definition k_eatr_X3B_9 (z a b c j k : nat) : ex := (ESub (k_eatr_X3B_8 (0 + z) a b c j k) (EScale (1) 2 (ESum (0 + z) 0 (ESum (1 + z) 3 (EMul (ET 35 [(0 + z); c; j; (1 + z)]) (ET 70 [a; b; (1 + z); (0 + z); k])))))).
Definition k_eatr_X3B_10 (z a b c j k : nat) : ex := (EAdd (k_eatr_X3B_9 (0 + z) a b c j k) (ESum (0 + z) 2 (ESum (1 + z) 3 (EMul (ET 23 [b; (0 + z); j; (1 + z)]) (ET 71 [a; (1 + z); c; (0 + z); k]))))).
Definition k_eatr_X3B_11 (z a b c j k : nat) : ex := (EAdd (k_eatr_X3B_10 (0 + z) a b c j k) (EScale (1) 4 (ESum (0 + z) 1 (ESum (1 + z) 1 (EMul (ET 41 [a; b; (0 + z); (1 + z)]) (ET 70 [(0 + z); (1 + z); c; j; k])))))).
Definition k_eatr_X3B_12 (z a b c j k : nat) : ex := (EAdd (k_eatr_X3B_11 (0 + z) a b c j k) (ESum (0 + z) 1 (ESum (1 + z) 3 (EMul (ET 43 [b; c; (0 + z); (1 + z)]) (ET 70 [a; (0 + z); (1 + z); j; k]))))).
Definition k_eatr_X3B_13 (z a b c j k : nat) : ex := (ESub (k_eatr_X3B_12 (0 + z) a b c j k) (EScale (1) 2 (ESum (0 + z) 0 (EMul (ET 37 [(0 + z); c; j; k]) (ET 67 [a; b; (0 + z)]))))).
Definition k_eatr_X3B_14 (z a b c j k : nat) : ex := (ESub (k_eatr_X3B_13 (0 + z) a b c j k) (ESum (0 + z) 2 (EMul (ET 38 [b; (0 + z); j; k]) (ET 68 [a; c; (0 + z)])))).
Definition k_eatr_X3B_15 (z a b c j k : nat) : ex := (EAdd (k_eatr_X3B_14 (0 + z) a b c j k) (ESum (0 + z) 1 (EMul (ET 39 [b; c; (0 + z); k]) (ET 67 [a; (0 + z); j])))).
Definition k_eatr_X3B_16 (z a b c j k : nat) : ex := (EAdd (k_eatr_X3B_15 (0 + z) a b c j k) (ESum (0 + z) 3 (EMul (ET 40 [b; c; j; (0 + z)]) (ET 68 [a; (0 + z); k])))).
Definition k_eatr_X3B_17 (z a b c j k : nat) : ex := (EAdd (k_eatr_X3B_16 (0 + z) a b c j k) (EScale (1) 2 (ESum (0 + z) 1 (EMul (ET 30 [b; a; j; (0 + z)]) (ET 68 [(0 + z); c; k]))))).
Definition k_eatr_X3B_18 (z a b c j k : nat) : ex := (ESub (k_eatr_X3B_17 (0 + z) a b c j k) (EScale (1) 2 (ESum (0 + z) 0 (EMul (k_eatr_X_ab_ovo (1 + z) (0 + z) c k) (ET 10 [a; b; (0 + z); j]))))).
Definition k_eatr_X3B_19 (z a b c j k : nat) : ex := (ESub (k_eatr_X3B_18 (0 + z) a b c j k) (ESum (0 + z) 0 (EMul (k_eatr_X_aa_voo (1 + z) a (0 + z) j) (ET 11 [b; c; (0 + z); k])))).
Definition k_eatr_X3B_20 (z a b c j k : nat) : ex := (ESub (k_eatr_X3B_19 (0 + z) a b c j k) (ESum (0 + z) 2 (EMul (k_eatr_X_ab_voo (1 + z) a (0 + z) k) (ET 11 [b; c; j; (0 + z)])))).
Definition k_eatr_X3B_21 (z a b c j k : nat) : ex := (EAdd (k_eatr_X3B_20 (0 + z) a b c j k) (EScale (1) 2 (ESum (0 + z) 1 (EMul (k_eatr_X_aa_vvv_1 (1 + z) a b (0 + z)) (ET 11 [(0 + z); c; j; k]))))).
Definition k_eatr_X3B_22 (z a b c j k : nat) : ex := (EAdd (k_eatr_X3B_21 (0 + z) a b c j k) (ESum (0 + z) 3 (EMul (k_eatr_X_ab_vvv (1 + z) a c (0 + z)) (ET 11 [b; (0 + z); j; k])))).
Definition k_eatr_X3B_23 (z a b c j k : nat) : ex := (ESub (k_eatr_X3B_22 (0 + z) a b c j k) (k_eatr_X3B_22 (0 + z) b a c j k)).
Definition k_eatr_X3C (z a b c j k : nat) : ex := (EScale (-1) 2 (ESum (0 + z) 2 (EMul (ET 19 [(0 + z); j]) (ET 71 [a; b; c; (0 + z); k])))).
Definition k_eatr_X3C_1 (z a b c j k : nat) : ex := (EAdd (k_eatr_X3C (0 + z) a b c j k) (EScale (1) 2 (ESum (0 + z) 3 (EMul (ET 15 [b; (0 + z)]) (ET 71 [a; (0 + z); c; j; k]))))).
Definition k_eatr_X3C_2 (z a b c j k : nat) : ex := (EAdd (k_eatr_X3C_1 (0 + z) a b c j k) (EScale (1) 4 (ESum (0 + z) 1 (EMul (ET 7 [a; (0 + z)]) (ET 71 [(0 + z); b; c; j; k]))))).
Definition k_eatr_X3C_3 (z a b c j k : nat) : ex := (EAdd (k_eatr_X3C_2 (0 + z) a b c j k) (EScale (1) 8 (ESum (0 + z) 2 (ESum (1 + z) 2 (EMul (ET 31 [(0 + z); (1 + z); j; k]) (ET 71 [a; b; c; (0 + z); (1 + z)])))))).
Definition k_eatr_X3C_4 (z a b c j k : nat) : ex := (EAdd (k_eatr_X3C_3 (0 + z) a b c j k) (ESum (0 + z) 0 (ESum (1 + z) 1 (EMul (ET 26 [(0 + z); b; (1 + z); j]) (ET 70 [a; (1 + z); c; (0 + z); k]))))).
Definition k_eatr_X3C_5 (z a b c j k : nat) : ex := (EAdd (k_eatr_X3C_4 (0 + z) a b c j k) (ESum (0 + z) 2 (ESum (1 + z) 3 (EMul (ET 25 [b; (0 + z); j; (1 + z)]) (ET 71 [a; (1 + z); c; (0 + z); k]))))).
Definition k_eatr_X3C_6 (z a b c j k : nat) : ex := (ESub (k_eatr_X3C_5 (0 + z) a b c j k) (EScale (1) 2 (ESum (0 + z) 2 (ESum (1 + z) 1 (EMul (ET 36 [a; (0 + z); (1 + z); j]) (ET 71 [(1 + z); b; c; (0 + z); k])))))).
Definition k_eatr_X3C_7 (z a b c j k : nat) : ex := (EAdd (k_eatr_X3C_6 (0 + z) a b c j k) (EScale (1) 2 (ESum (0 + z) 1 (ESum (1 + z) 3 (EMul (ET 43 [a; b; (0 + z); (1 + z)]) (ET 71 [(0 + z); (1 + z); c; j; k])))))).
Definition k_eatr_X3C_8 (z a b c j k : nat) : ex := (EAdd (k_eatr_X3C_7 (0 + z) a b c j k) (EScale (1) 8 (ESum (0 + z) 3 (ESum (1 + z) 3 (EMul (ET 45 [b; c; (0 + z); (1 + z)]) (ET 71 [a; (0 + z); (1 + z); j; k])))))).
Definition k_eatr_X3C_9 (z a b c j k : nat) : ex := (ESub (k_eatr_X3C_8 (0 + z) a b c j k) (EScale (1) 2 (ESum (0 + z) 2 (EMul (ET 32 [c; (0 + z); k; j]) (ET 68 [a; b; (0 + z)]))))).
Definition k_eatr_X3C_10 (z a b c j k : nat) : ex := (EAdd (k_eatr_X3C_9 (0 + z) a b c j k) (EScale (1) 2 (ESum (0 + z) 3 (EMul (ET 33 [c; b; k; (0 + z)]) (ET 68 [a; (0 + z); j]))))).
Definition k_eatr_X3C_11 (z a b c j k : nat) : ex := (EAdd (k_eatr_X3C_10 (0 + z) a b c j k) (ESum (0 + z) 1 (EMul (ET 39 [a; c; (0 + z); k]) (ET 68 [(0 + z); b; j])))).
Definition k_eatr_X3C_12 (z a b c j k : nat) : ex := (ESub (k_eatr_X3C_11 (0 + z) a b c j k) (EScale (1) 2 (ESum (0 + z) 2 (EMul (k_eatr_X_ab_voo (1 + z) a (0 + z) j) (ET 18 [b; c; (0 + z); k]))))).
Definition k_eatr_X3C_13 (z a b c j k : nat) : ex := (ESub (k_eatr_X3C_12 (0 + z) a b c j k) (ESum (0 + z) 0 (EMul (k_eatr_X_ab_ovo (1 + z) (0 + z) c k) (ET 11 [a; b; (0 + z); j])))).
Definition k_eatr_X3C_14 (z a b c j k : nat) : ex := (EAdd (k_eatr_X3C_13 (0 + z) a b c j k) (EScale (1) 2 (ESum (0 + z) 3 (EMul (k_eatr_X_ab_vvv (1 + z) a b (0 + z)) (ET 18 [(0 + z); c; j; k]))))).
Definition k_eatr_X3C_15 (z a b c j k : nat) : ex := (ESub (k_eatr_X3C_14 (0 + z) a b c j k) (k_eatr_X3C_14 (0 + z) a c b j k)).
Definition k_eatr_X3C_16 (z a b c j k : nat) : ex := (ESub (k_eatr_X3C_15 (0 + z) a b c j k) (k_eatr_X3C_15 (0 + z) a b c k j)).
Section S_eat.
Variables (d : dims) (X X' : ints) (T T' : amps) (Y : eatv).
Hypothesis (HX : ints_agree d X X') (Ta : forall a b i j, x_aa T a b i j = x_aa T' a b i j) (Tb : forall a b i j, x_ab T a b i j = x_ab T' a b i j) (Tc : forall a b i j, x_bb T a b i j = x_bb T' a b i j).
Lemma eat_same_a p : p < nua d -> eat_a (eat_HR d X T Y) p = eat_a (eat_HR d X' T' Y) p.
Proof. intros. apply (skel d X X' T T' [ap1 (eat_a Y); ap3 (eat_aa Y); ap3 (eat_ab Y); ap5 (eat_aaa Y); ap5 (eat_aab Y); ap5 (eat_abb Y)] [(0, 1)] (k_eatr_X1A_7 10 0) (venv [p]) HX Ta Tb Tc); [cbn [length]; lia|vm_compute; reflexivity|rng6]. Qed.
Lemma eat_same_aa p q r : p < nua d -> q < nua d -> r < noa d -> eat_aa (eat_HR d X T Y) p q r = eat_aa (eat_HR d X' T' Y) p q r.
Proof. intros. apply (skel d X X' T T' [ap1 (eat_a Y); ap3 (eat_aa Y); ap3 (eat_ab Y); ap5 (eat_aaa Y); ap5 (eat_aab Y); ap5 (eat_abb Y)] [(0, 1); (1, 1); (2, 0)] (k_eatr_X2A_13 10 0 1 2) (venv [p; q; r]) HX Ta Tb Tc); [cbn [length]; lia|vm_compute; reflexivity|rng6]. Qed.
Lemma eat_same_ab p q r : p < nua d -> q < nub d -> r < nob d -> eat_ab (eat_HR d X T Y) p q r = eat_ab (eat_HR d X' T' Y) p q r.
Proof. intros. apply (skel d X X' T T' [ap1 (eat_a Y); ap3 (eat_aa Y); ap3 (eat_ab Y); ap5 (eat_aaa Y); ap5 (eat_aab Y); ap5 (eat_abb Y)] [(0, 1); (1, 3); (2, 2)] (k_eatr_X2B_16 10 0 1 2) (venv [p; q; r]) HX Ta Tb Tc); [cbn [length]; lia|vm_compute; reflexivity|rng6]. Qed.
Lemma eat_same_aaa p q r s t : p < nua d -> q < nua d -> r < nua d -> s < noa d -> t < noa d -> eat_aaa (eat_HR d X T Y) p q r s t = eat_aaa (eat_HR d X' T' Y) p q r s t.
Proof. intros. apply (skel d X X' T T' [ap1 (eat_a Y); ap3 (eat_aa Y); ap3 (eat_ab Y); ap5 (eat_aaa Y); ap5 (eat_aab Y); ap5 (eat_abb Y)] [(0, 1); (1, 1); (2, 1); (3, 0); (4, 0)] (k_eatr_X3A_12 10 0 1 2 3 4) (venv [p; q; r; s; t]) HX Ta Tb Tc); [cbn [length]; lia|vm_compute; reflexivity|rng6]. Qed.
Lemma eat_same_aab p q r s t : p < nua d -> q < nua d -> r < nub d -> s < noa d -> t < nob d -> eat_aab (eat_HR d X T Y) p q r s t = eat_aab (eat_HR d X' T' Y) p q r s t.
Proof. intros. apply (skel d X X' T T' [ap1 (eat_a Y); ap3 (eat_aa Y); ap3 (eat_ab Y); ap5 (eat_aaa Y); ap5 (eat_aab Y); ap5 (eat_abb Y)] [(0, 1); (1, 1); (2, 3); (3, 0); (4, 2)] (k_eatr_X3B_23 10 0 1 2 3 4) (venv [p; q; r; s; t]) HX Ta Tb Tc); [cbn [length]; lia|vm_compute; reflexivity|rng6]. Qed.
Lemma eat_same_abb p q r s t : p < nua d -> q < nub d -> r < nub d -> s < nob d -> t < nob d -> eat_abb (eat_HR d X T Y) p q r s t = eat_abb (eat_HR d X' T' Y) p q r s t.
Proof. intros. apply (skel d X X' T T' [ap1 (eat_a Y); ap3 (eat_aa Y); ap3 (eat_ab Y); ap5 (eat_aaa Y); ap5 (eat_aab Y); ap5 (eat_abb Y)] [(0, 1); (1, 3); (2, 3); (3, 2); (4, 2)] (k_eatr_X3C_16 10 0 1 2 3 4) (venv [p; q; r; s; t]) HX Ta Tb Tc); [cbn [length]; lia|vm_compute; reflexivity|rng6]. Qed.
Lemma eat_root_same w : eat_root d (eat_HR d X T Y) Y w <-> eat_root d (eat_HR d X' T' Y) Y w.
Proof.
  unfold eat_root. split; intros G; decompose [and] G; repeat match goal with |- _ /\ _ => split end; intros; first [rewrite eat_same_a by assumption | rewrite eat_same_aa by assumption | rewrite eat_same_ab by assumption | rewrite eat_same_aaa by assumption | rewrite eat_same_aab by assumption | rewrite eat_same_abb by assumption | rewrite <- eat_same_a by assumption | rewrite <- eat_same_aa by assumption | rewrite <- eat_same_ab by assumption | rewrite <- eat_same_aaa by assumption | rewrite <- eat_same_aab by assumption | rewrite <- eat_same_abb by assumption]; auto.
Qed.
End S_eat.
Definition k_dipqr_X_ab_ov (z i e : nat) : ex := (ESub (ESub (ESum (0 + z) 0 (ESum (1 + z) 2 (EMul (ET 14 [(0 + z); (1 + z); i; e]) (ET 66 [(0 + z); (1 + z)])))) (ESum (0 + z) 0 (ESum (1 + z) 2 (ESum (2 + z) 1 (EMul (ET 3 [(0 + z); (1 + z); (2 + z); e]) (ET 67 [i; (1 + z); (2 + z); (0 + z)])))))) (EScale (1) 2 (ESum (0 + z) 2 (ESum (1 + z) 2 (ESum (2 + z) 3 (EMul (ET 6 [(0 + z); (1 + z); (2 + z); e]) (ET 68 [i; (1 + z); (2 + z); (0 + z)]))))))).
Definition k_dipqr_X_ab_vo (z e j : nat) : ex := (ESub (ESub (ESum (0 + z) 0 (ESum (1 + z) 2 (EMul (ET 21 [(0 + z); (1 + z); e; j]) (ET 66 [(0 + z); (1 + z)])))) (EScale (1) 2 (ESum (0 + z) 0 (ESum (1 + z) 0 (ESum (2 + z) 1 (EMul (ET 1 [(0 + z); (1 + z); e; (2 + z)]) (ET 67 [(0 + z); j; (2 + z); (1 + z)]))))))) (ESum (0 + z) 0 (ESum (1 + z) 2 (ESum (2 + z) 3 (EMul (ET 3 [(0 + z); (1 + z); e; (2 + z)]) (ET 68 [(0 + z); j; (2 + z); (1 + z)])))))).
Definition k_dipqr_X_ab_vv (z e f : nat) : ex := (ESum (0 + z) 0 (ESum (1 + z) 2 (EMul (ET 3 [(0 + z); (1 + z); e; f]) (ET 66 [(0 + z); (1 + z)])))).
Definition k_dipqr_X_aba_oovv (z i j c e : nat) : ex := (ESub (ESub (ESub (EAdd (EAdd (EAdd (EAdd (ESum (0 + z) 0 (ESum (1 + z) 1 (EMul (ET 8 [c; (0 + z); e; (1 + z)]) (ET 67 [i; j; (1 + z); (0 + z)])))) (ESum (0 + z) 2 (ESum (1 + z) 3 (EMul (ET 9 [c; (0 + z); e; (1 + z)]) (ET 68 [i; j; (1 + z); (0 + z)]))))) (ESum (0 + z) 0 (EMul (ET 22 [c; (0 + z); i; e]) (ET 66 [(0 + z); j])))) (ESum (0 + z) 0 (ESum (1 + z) 2 (EMul (ET 21 [(0 + z); (1 + z); e; j]) (ET 67 [i; (1 + z); c; (0 + z)]))))) (EScale (1) 2 (ESum (0 + z) 0 (ESum (1 + z) 0 (EMul (ET 13 [(0 + z); (1 + z); i; e]) (ET 67 [(0 + z); j; c; (1 + z)])))))) (ESum (0 + z) 2 (EMul (ET 36 [c; (0 + z); e; j]) (ET 66 [i; (0 + z)])))) (EScale (1) 2 (ESum (0 + z) 0 (ESum (1 + z) 0 (ESum (2 + z) 1 (EMul (ET 1 [(0 + z); (1 + z); e; (2 + z)]) (ET 69 [i; j; c; (2 + z); (0 + z); (1 + z)]))))))) (ESum (0 + z) 0 (ESum (1 + z) 2 (ESum (2 + z) 3 (EMul (ET 3 [(0 + z); (1 + z); e; (2 + z)]) (ET 70 [i; j; c; (2 + z); (0 + z); (1 + z)])))))).
Definition k_dipqr_X_aba_oooo (z i j m k : nat) : ex := (EAdd (EAdd (ESub (ESub (ESub (EAdd (ESum (0 + z) 0 (ESum (1 + z) 1 (EMul (ET 13 [m; (0 + z); k; (1 + z)]) (ET 67 [i; j; (1 + z); (0 + z)])))) (ESum (0 + z) 2 (ESum (1 + z) 3 (EMul (ET 14 [m; (0 + z); k; (1 + z)]) (ET 68 [i; j; (1 + z); (0 + z)]))))) (EScale (1) 2 (ESum (0 + z) 2 (ESum (1 + z) 1 (EMul (ET 21 [m; (0 + z); (1 + z); j]) (ET 67 [i; (0 + z); (1 + z); k])))))) (EScale (1) 2 (ESum (0 + z) 0 (EMul (ET 28 [(0 + z); m; i; k]) (ET 66 [(0 + z); j]))))) (ESum (0 + z) 2 (EMul (ET 34 [m; (0 + z); k; j]) (ET 66 [i; (0 + z)])))) (EScale (1) 4 (ESum (0 + z) 0 (ESum (1 + z) 1 (ESum (2 + z) 1 (EMul (ET 1 [m; (0 + z); (1 + z); (2 + z)]) (ET 69 [i; j; (1 + z); (2 + z); k; (0 + z)]))))))) (EScale (1) 2 (ESum (0 + z) 2 (ESum (1 + z) 1 (ESum (2 + z) 3 (EMul (ET 3 [m; (0 + z); (1 + z); (2 + z)]) (ET 70 [i; j; (1 + z); (2 + z); k; (0 + z)]))))))).
Definition k_dipqr_X_aba_oooo_1 (z i j m k : nat) : ex := (ESub (k_dipqr_X_aba_oooo (0 + z) i j m k) (k_dipqr_X_aba_oooo (0 + z) k j m i)).
Definition k_dipqr_X_aba_ovvo (z i e c k : nat) : ex := (ESub (ESub (ESub (ESub (ESum (0 + z) 0 (ESum (1 + z) 2 (EMul (ET 14 [(0 + z); (1 + z); i; e]) (ET 67 [(0 + z); (1 + z); c; k])))) (EScale (1) 2 (ESum (0 + z) 2 (ESum (1 + z) 1 (EMul (ET 9 [c; (0 + z); (1 + z); e]) (ET 67 [i; (0 + z); (1 + z); k])))))) (ESum (0 + z) 2 (EMul (ET 23 [c; (0 + z); k; e]) (ET 66 [i; (0 + z)])))) (EScale (1) 2 (ESum (0 + z) 0 (ESum (1 + z) 2 (ESum (2 + z) 1 (EMul (ET 3 [(0 + z); (1 + z); (2 + z); e]) (ET 69 [i; (1 + z); c; (2 + z); k; (0 + z)]))))))) (EScale (1) 4 (ESum (0 + z) 2 (ESum (1 + z) 2 (ESum (2 + z) 3 (EMul (ET 6 [(0 + z); (1 + z); e; (2 + z)]) (ET 70 [i; (0 + z); c; (2 + z); k; (1 + z)]))))))).
Definition k_dipqr_X_aba_ovvo_1 (z i e c k : nat) : ex := (ESub (k_dipqr_X_aba_ovvo (0 + z) i e c k) (k_dipqr_X_aba_ovvo (0 + z) k e c i)).
Definition k_dipqr_X_abb_oovv (z i j d e : nat) : ex := (ESub (ESub (ESub (EAdd (EAdd (EAdd (EAdd (ESum (0 + z) 0 (ESum (1 + z) 1 (EMul (ET 17 [(0 + z); d; (1 + z); e]) (ET 67 [i; j; (1 + z); (0 + z)])))) (ESum (0 + z) 2 (ESum (1 + z) 3 (EMul (ET 16 [d; (0 + z); e; (1 + z)]) (ET 68 [i; j; (1 + z); (0 + z)]))))) (ESum (0 + z) 2 (EMul (ET 25 [d; (0 + z); j; e]) (ET 66 [i; (0 + z)])))) (EScale (1) 2 (ESum (0 + z) 2 (ESum (1 + z) 2 (EMul (ET 20 [(0 + z); (1 + z); j; e]) (ET 68 [i; (0 + z); d; (1 + z)])))))) (ESum (0 + z) 0 (ESum (1 + z) 2 (EMul (ET 14 [(0 + z); (1 + z); i; e]) (ET 68 [(0 + z); j; d; (1 + z)]))))) (ESum (0 + z) 0 (EMul (ET 35 [(0 + z); d; i; e]) (ET 66 [(0 + z); j])))) (ESum (0 + z) 0 (ESum (1 + z) 2 (ESum (2 + z) 1 (EMul (ET 3 [(0 + z); (1 + z); (2 + z); e]) (ET 70 [i; j; (2 + z); d; (0 + z); (1 + z)])))))) (EScale (1) 2 (ESum (0 + z) 2 (ESum (1 + z) 2 (ESum (2 + z) 3 (EMul (ET 6 [(0 + z); (1 + z); e; (2 + z)]) (ET 71 [i; j; (2 + z); d; (1 + z); (0 + z)]))))))).
Definition k_dipqr_X_abb_oooo (z i j m k : nat) : ex := (EAdd (EAdd (ESub (ESub (ESub (EAdd (ESum (0 + z) 0 (ESum (1 + z) 1 (EMul (ET 21 [(0 + z); m; (1 + z); k]) (ET 67 [i; j; (1 + z); (0 + z)])))) (ESum (0 + z) 2 (ESum (1 + z) 3 (EMul (ET 20 [m; (0 + z); k; (1 + z)]) (ET 68 [i; j; (1 + z); (0 + z)]))))) (ESum (0 + z) 0 (EMul (ET 34 [(0 + z); m; i; k]) (ET 66 [(0 + z); j])))) (EScale (1) 2 (ESum (0 + z) 0 (ESum (1 + z) 3 (EMul (ET 14 [(0 + z); m; i; (1 + z)]) (ET 68 [(0 + z); j; (1 + z); k])))))) (EScale (1) 2 (ESum (0 + z) 2 (EMul (ET 31 [(0 + z); m; j; k]) (ET 66 [i; (0 + z)]))))) (EScale (1) 2 (ESum (0 + z) 0 (ESum (1 + z) 1 (ESum (2 + z) 3 (EMul (ET 3 [(0 + z); m; (1 + z); (2 + z)]) (ET 70 [i; j; (1 + z); (2 + z); (0 + z); k]))))))) (EScale (1) 4 (ESum (0 + z) 2 (ESum (1 + z) 3 (ESum (2 + z) 3 (EMul (ET 6 [m; (0 + z); (1 + z); (2 + z)]) (ET 71 [i; j; (2 + z); (1 + z); (0 + z); k]))))))).
Definition k_dipqr_X_abb_oooo_1 (z i j m k : nat) : ex := (ESub (k_dipqr_X_abb_oooo (0 + z) i j m k) (k_dipqr_X_abb_oooo (0 + z) i k m j)).
Definition k_dipqr_X_abb_vovo (z e j d l : nat) : ex := (ESub (ESub (ESub (EAdd (EScale (-1) 2 (ESum (0 + z) 0 (ESum (1 + z) 3 (EMul (ET 17 [(0 + z); d; e; (1 + z)]) (ET 68 [(0 + z); j; (1 + z); l]))))) (ESum (0 + z) 0 (ESum (1 + z) 2 (EMul (ET 21 [(0 + z); (1 + z); e; j]) (ET 68 [(0 + z); (1 + z); d; l]))))) (ESum (0 + z) 0 (EMul (ET 26 [(0 + z); d; e; l]) (ET 66 [(0 + z); j])))) (EScale (1) 4 (ESum (0 + z) 0 (ESum (1 + z) 0 (ESum (2 + z) 1 (EMul (ET 1 [(0 + z); (1 + z); e; (2 + z)]) (ET 70 [(0 + z); j; (2 + z); d; (1 + z); l]))))))) (EScale (1) 2 (ESum (0 + z) 0 (ESum (1 + z) 2 (ESum (2 + z) 3 (EMul (ET 3 [(0 + z); (1 + z); e; (2 + z)]) (ET 71 [(0 + z); j; (2 + z); d; (1 + z); l]))))))).
Definition k_dipqr_X_abb_vovo_1 (z e j d l : nat) : ex := (ESub (k_dipqr_X_abb_vovo (0 + z) e j d l) (k_dipqr_X_abb_vovo (0 + z) e l d j)).
Definition k_dipqr_x2b (z i j : nat) : ex := (EOpp (ESum (0 + z) 0 (EMul (ET 12 [(0 + z); i]) (ET 66 [(0 + z); j])))).
Definition k_dipqr_x2b_1 (z i j : nat) : ex := (ESub (k_dipqr_x2b (0 + z) i j) (ESum (0 + z) 2 (EMul (ET 19 [(0 + z); j]) (ET 66 [i; (0 + z)])))).
Definition k_dipqr_x2b_2 (z i j : nat) : ex := (EAdd (k_dipqr_x2b_1 (0 + z) i j) (ESum (0 + z) 0 (ESum (1 + z) 2 (EMul (ET 34 [(0 + z); (1 + z); i; j]) (ET 66 [(0 + z); (1 + z)]))))).
Definition k_dipqr_x2b_3 (z i j : nat) : ex := (EAdd (k_dipqr_x2b_2 (0 + z) i j) (ESum (0 + z) 0 (ESum (1 + z) 1 (EMul (ET 0 [(0 + z); (1 + z)]) (ET 67 [i; j; (1 + z); (0 + z)]))))).
Definition k_dipqr_x2b_4 (z i j : nat) : ex := (EAdd (k_dipqr_x2b_3 (0 + z) i j) (ESum (0 + z) 2 (ESum (1 + z) 3 (EMul (ET 5 [(0 + z); (1 + z)]) (ET 68 [i; j; (1 + z); (0 + z)]))))).
Definition k_dipqr_x2b_5 (z i j : nat) : ex := (ESub (k_dipqr_x2b_4 (0 + z) i j) (ESum (0 + z) 0 (ESum (1 + z) 2 (ESum (2 + z) 1 (EMul (ET 21 [(0 + z); (1 + z); (2 + z); j]) (ET 67 [i; (1 + z); (2 + z); (0 + z)])))))).
Definition k_dipqr_x2b_6 (z i j : nat) : ex := (ESub (k_dipqr_x2b_5 (0 + z) i j) (EScale (1) 2 (ESum (0 + z) 2 (ESum (1 + z) 2 (ESum (2 + z) 3 (EMul (ET 20 [(0 + z); (1 + z); j; (2 + z)]) (ET 68 [i; (0 + z); (2 + z); (1 + z)]))))))).
Definition k_dipqr_x2b_7 (z i j : nat) : ex := (ESub (k_dipqr_x2b_6 (0 + z) i j) (EScale (1) 2 (ESum (0 + z) 0 (ESum (1 + z) 0 (ESum (2 + z) 1 (EMul (ET 13 [(0 + z); (1 + z); i; (2 + z)]) (ET 67 [(0 + z); j; (2 + z); (1 + z)]))))))).
Definition k_dipqr_x2b_8 (z i j : nat) : ex := (ESub (k_dipqr_x2b_7 (0 + z) i j) (ESum (0 + z) 0 (ESum (1 + z) 2 (ESum (2 + z) 3 (EMul (ET 14 [(0 + z); (1 + z); i; (2 + z)]) (ET 68 [(0 + z); j; (2 + z); (1 + z)])))))).
Definition k_dipqr_x2b_9 (z i j : nat) : ex := (EAdd (k_dipqr_x2b_8 (0 + z) i j) (EScale (1) 4 (ESum (0 + z) 0 (ESum (1 + z) 0 (ESum (2 + z) 1 (ESum (3 + z) 1 (EMul (ET 1 [(0 + z); (1 + z); (2 + z); (3 + z)]) (ET 69 [i; j; (2 + z); (3 + z); (0 + z); (1 + z)])))))))).
Definition k_dipqr_x2b_10 (z i j : nat) : ex := (EAdd (k_dipqr_x2b_9 (0 + z) i j) (ESum (0 + z) 0 (ESum (1 + z) 2 (ESum (2 + z) 1 (ESum (3 + z) 3 (EMul (ET 3 [(0 + z); (1 + z); (2 + z); (3 + z)]) (ET 70 [i; j; (2 + z); (3 + z); (0 + z); (1 + z)]))))))).
Definition k_dipqr_x2b_11 (z i j : nat) : ex := (EAdd (k_dipqr_x2b_10 (0 + z) i j) (EScale (1) 4 (ESum (0 + z) 2 (ESum (1 + z) 2 (ESum (2 + z) 3 (ESum (3 + z) 3 (EMul (ET 6 [(0 + z); (1 + z); (2 + z); (3 + z)]) (ET 71 [i; j; (2 + z); (3 + z); (0 + z); (1 + z)])))))))).
Definition k_dipqr_x3b (z i j c k : nat) : ex := (EScale (-1) 2 (ESum (0 + z) 0 (EMul (ET 29 [c; (0 + z); k; i]) (ET 66 [(0 + z); j])))).
Definition k_dipqr_x3b_1 (z i j c k : nat) : ex := (ESub (k_dipqr_x3b (0 + z) i j c k) (ESum (0 + z) 2 (EMul (ET 38 [c; (0 + z); k; j]) (ET 66 [i; (0 + z)])))).
Definition k_dipqr_x3b_2 (z i j c k : nat) : ex := (ESub (k_dipqr_x3b_1 (0 + z) i j c k) (ESum (0 + z) 0 (EMul (ET 12 [(0 + z); k]) (ET 67 [i; j; c; (0 + z)])))).
Definition k_dipqr_x3b_3 (z i j c k : nat) : ex := (ESub (k_dipqr_x3b_2 (0 + z) i j c k) (EScale (1) 2 (ESum (0 + z) 2 (EMul (ET 19 [(0 + z); j]) (ET 67 [i; (0 + z); c; k]))))).
Definition k_dipqr_x3b_4 (z i j c k : nat) : ex := (EAdd (k_dipqr_x3b_3 (0 + z) i j c k) (EScale (1) 2 (ESum (0 + z) 1 (EMul (ET 7 [c; (0 + z)]) (ET 67 [i; j; (0 + z); k]))))).
Definition k_dipqr_x3b_5 (z i j c k : nat) : ex := (EAdd (k_dipqr_x3b_4 (0 + z) i j c k) (ESum (0 + z) 0 (ESum (1 + z) 1 (EMul (ET 22 [c; (0 + z); k; (1 + z)]) (ET 67 [i; j; (1 + z); (0 + z)]))))).
Definition k_dipqr_x3b_6 (z i j c k : nat) : ex := (EAdd (k_dipqr_x3b_5 (0 + z) i j c k) (ESum (0 + z) 2 (ESum (1 + z) 3 (EMul (ET 23 [c; (0 + z); k; (1 + z)]) (ET 68 [i; j; (1 + z); (0 + z)]))))).
Definition k_dipqr_x3b_7 (z i j c k : nat) : ex := (EAdd (k_dipqr_x3b_6 (0 + z) i j c k) (ESum (0 + z) 0 (ESum (1 + z) 2 (EMul (ET 34 [(0 + z); (1 + z); i; j]) (ET 67 [(0 + z); (1 + z); c; k]))))).
Definition k_dipqr_x3b_8 (z i j c k : nat) : ex := (EAdd (k_dipqr_x3b_7 (0 + z) i j c k) (EScale (1) 4 (ESum (0 + z) 0 (ESum (1 + z) 0 (EMul (ET 28 [(0 + z); (1 + z); i; k]) (ET 67 [(0 + z); j; c; (1 + z)])))))).
Definition k_dipqr_x3b_9 (z i j c k : nat) : ex := (ESub (k_dipqr_x3b_8 (0 + z) i j c k) (EScale (1) 2 (ESum (0 + z) 2 (ESum (1 + z) 1 (EMul (ET 36 [c; (0 + z); (1 + z); j]) (ET 67 [i; (0 + z); (1 + z); k])))))).
Definition k_dipqr_x3b_10 (z i j c k : nat) : ex := (EAdd (k_dipqr_x3b_9 (0 + z) i j c k) (ESum (0 + z) 3 (EMul (k_dipqr_X_ab_ov (1 + z) i (0 + z)) (ET 11 [c; (0 + z); k; j])))).
Definition k_dipqr_x3b_11 (z i j c k : nat) : ex := (EAdd (k_dipqr_x3b_10 (0 + z) i j c k) (EScale (1) 2 (ESum (0 + z) 1 (EMul (k_dipqr_X_ab_vo (1 + z) (0 + z) j) (ET 10 [(0 + z); c; i; k]))))).
Definition k_dipqr_x3b_12 (z i j c k : nat) : ex := (EAdd (k_dipqr_x3b_11 (0 + z) i j c k) (EScale (1) 2 (ESum (0 + z) 0 (ESum (1 + z) 1 (EMul (ET 0 [(0 + z); (1 + z)]) (ET 69 [i; j; c; (1 + z); k; (0 + z)])))))).
Definition k_dipqr_x3b_13 (z i j c k : nat) : ex := (EAdd (k_dipqr_x3b_12 (0 + z) i j c k) (EScale (1) 2 (ESum (0 + z) 2 (ESum (1 + z) 3 (EMul (ET 5 [(0 + z); (1 + z)]) (ET 70 [i; j; c; (1 + z); k; (0 + z)])))))).
Definition k_dipqr_x3b_14 (z i j c k : nat) : ex := (ESub (k_dipqr_x3b_13 (0 + z) i j c k) (EScale (1) 2 (ESum (0 + z) 0 (ESum (1 + z) 0 (ESum (2 + z) 1 (EMul (ET 13 [(0 + z); (1 + z); i; (2 + z)]) (ET 69 [(0 + z); j; c; (2 + z); k; (1 + z)]))))))).
Definition k_dipqr_x3b_15 (z i j c k : nat) : ex := (ESub (k_dipqr_x3b_14 (0 + z) i j c k) (ESum (0 + z) 0 (ESum (1 + z) 2 (ESum (2 + z) 3 (EMul (ET 14 [(0 + z); (1 + z); i; (2 + z)]) (ET 70 [(0 + z); j; c; (2 + z); k; (1 + z)])))))).
Definition k_dipqr_x3b_16 (z i j c k : nat) : ex := (ESub (k_dipqr_x3b_15 (0 + z) i j c k) (EScale (1) 2 (ESum (0 + z) 0 (ESum (1 + z) 2 (ESum (2 + z) 1 (EMul (ET 21 [(0 + z); (1 + z); (2 + z); j]) (ET 69 [i; (1 + z); c; (2 + z); k; (0 + z)]))))))).
Definition k_dipqr_x3b_17 (z i j c k : nat) : ex := (ESub (k_dipqr_x3b_16 (0 + z) i j c k) (EScale (1) 4 (ESum (0 + z) 2 (ESum (1 + z) 2 (ESum (2 + z) 3 (EMul (ET 20 [(0 + z); (1 + z); j; (2 + z)]) (ET 70 [i; (0 + z); c; (2 + z); k; (1 + z)]))))))).
Definition k_dipqr_x3b_18 (z i j c k : nat) : ex := (EAdd (k_dipqr_x3b_17 (0 + z) i j c k) (EScale (1) 4 (ESum (0 + z) 0 (ESum (1 + z) 1 (ESum (2 + z) 1 (EMul (ET 8 [c; (0 + z); (1 + z); (2 + z)]) (ET 69 [i; j; (1 + z); (2 + z); k; (0 + z)]))))))).
Definition k_dipqr_x3b_19 (z i j c k : nat) : ex := (EAdd (k_dipqr_x3b_18 (0 + z) i j c k) (EScale (1) 2 (ESum (0 + z) 2 (ESum (1 + z) 1 (ESum (2 + z) 3 (EMul (ET 9 [c; (0 + z); (1 + z); (2 + z)]) (ET 70 [i; j; (1 + z); (2 + z); k; (0 + z)]))))))).
Definition k_dipqr_x3b_20 (z i j c k : nat) : ex := (ESub (k_dipqr_x3b_19 (0 + z) i j c k) (k_dipqr_x3b_19 (0 + z) k j c i)).
Definition k_dipqr_x3c (z i j c k : nat) : ex := (EOpp (ESum (0 + z) 0 (EMul (ET 37 [(0 + z); c; i; k]) (ET 66 [(0 + z); j])))).
Definition k_dipqr_x3c_1 (z i j c k : nat) : ex := (ESub (k_dipqr_x3c (0 + z) i j c k) (EScale (1) 2 (ESum (0 + z) 2 (EMul (ET 32 [c; (0 + z); k; j]) (ET 66 [i; (0 + z)]))))).
Definition k_dipqr_x3c_2 (z i j c k : nat) : ex := (ESub (k_dipqr_x3c_1 (0 + z) i j c k) (EScale (1) 2 (ESum (0 + z) 0 (EMul (ET 12 [(0 + z); i]) (ET 68 [(0 + z); j; c; k]))))).
Definition k_dipqr_x3c_3 (z i j c k : nat) : ex := (ESub (k_dipqr_x3c_2 (0 + z) i j c k) (ESum (0 + z) 2 (EMul (ET 19 [(0 + z); j]) (ET 68 [i; (0 + z); c; k])))).
Definition k_dipqr_x3c_4 (z i j c k : nat) : ex := (EAdd (k_dipqr_x3c_3 (0 + z) i j c k) (EScale (1) 2 (ESum (0 + z) 3 (EMul (ET 15 [c; (0 + z)]) (ET 68 [i; j; (0 + z); k]))))).
Definition k_dipqr_x3c_5 (z i j c k : nat) : ex := (EAdd (k_dipqr_x3c_4 (0 + z) i j c k) (ESum (0 + z) 0 (ESum (1 + z) 2 (EMul (ET 34 [(0 + z); (1 + z); i; j]) (ET 68 [(0 + z); (1 + z); c; k]))))).
Definition k_dipqr_x3c_6 (z i j c k : nat) : ex := (EAdd (k_dipqr_x3c_5 (0 + z) i j c k) (EScale (1) 4 (ESum (0 + z) 2 (ESum (1 + z) 2 (EMul (ET 31 [(0 + z); (1 + z); j; k]) (ET 68 [i; (0 + z); c; (1 + z)])))))).
Definition k_dipqr_x3c_7 (z i j c k : nat) : ex := (EAdd (k_dipqr_x3c_6 (0 + z) i j c k) (ESum (0 + z) 0 (ESum (1 + z) 1 (EMul (ET 26 [(0 + z); c; (1 + z); k]) (ET 67 [i; j; (1 + z); (0 + z)]))))).
Definition k_dipqr_x3c_8 (z i j c k : nat) : ex := (EAdd (k_dipqr_x3c_7 (0 + z) i j c k) (ESum (0 + z) 2 (ESum (1 + z) 3 (EMul (ET 25 [c; (0 + z); k; (1 + z)]) (ET 68 [i; j; (1 + z); (0 + z)]))))).
Definition k_dipqr_x3c_9 (z i j c k : nat) : ex := (ESub (k_dipqr_x3c_8 (0 + z) i j c k) (EScale (1) 2 (ESum (0 + z) 0 (ESum (1 + z) 3 (EMul (ET 35 [(0 + z); c; i; (1 + z)]) (ET 68 [(0 + z); j; (1 + z); k])))))).
Definition k_dipqr_x3c_10 (z i j c k : nat) : ex := (EAdd (k_dipqr_x3c_9 (0 + z) i j c k) (ESum (0 + z) 1 (EMul (k_dipqr_X_ab_vo (1 + z) (0 + z) j) (ET 11 [(0 + z); c; i; k])))).
Definition k_dipqr_x3c_11 (z i j c k : nat) : ex := (EAdd (k_dipqr_x3c_10 (0 + z) i j c k) (EScale (1) 2 (ESum (0 + z) 3 (EMul (k_dipqr_X_ab_ov (1 + z) i (0 + z)) (ET 18 [(0 + z); c; j; k]))))).
Definition k_dipqr_x3c_12 (z i j c k : nat) : ex := (EAdd (k_dipqr_x3c_11 (0 + z) i j c k) (EScale (1) 2 (ESum (0 + z) 0 (ESum (1 + z) 1 (EMul (ET 0 [(0 + z); (1 + z)]) (ET 70 [i; j; (1 + z); c; (0 + z); k])))))).
Definition k_dipqr_x3c_13 (z i j c k : nat) : ex := (EAdd (k_dipqr_x3c_12 (0 + z) i j c k) (EScale (1) 2 (ESum (0 + z) 2 (ESum (1 + z) 3 (EMul (ET 5 [(0 + z); (1 + z)]) (ET 71 [i; j; (1 + z); c; (0 + z); k])))))).
Definition k_dipqr_x3c_14 (z i j c k : nat) : ex := (EAdd (k_dipqr_x3c_13 (0 + z) i j c k) (EScale (1) 2 (ESum (0 + z) 0 (ESum (1 + z) 1 (ESum (2 + z) 3 (EMul (ET 17 [(0 + z); c; (1 + z); (2 + z)]) (ET 70 [i; j; (1 + z); (2 + z); (0 + z); k]))))))).
Definition k_dipqr_x3c_15 (z i j c k : nat) : ex := (EAdd (k_dipqr_x3c_14 (0 + z) i j c k) (EScale (1) 4 (ESum (0 + z) 2 (ESum (1 + z) 3 (ESum (2 + z) 3 (EMul (ET 16 [c; (0 + z); (1 + z); (2 + z)]) (ET 71 [i; j; (1 + z); (2 + z); k; (0 + z)]))))))).
Definition k_dipqr_x3c_16 (z i j c k : nat) : ex := (ESub (k_dipqr_x3c_15 (0 + z) i j c k) (ESum (0 + z) 0 (ESum (1 + z) 2 (ESum (2 + z) 1 (EMul (ET 21 [(0 + z); (1 + z); (2 + z); k]) (ET 70 [i; j; (2 + z); c; (0 + z); (1 + z)])))))).
Definition k_dipqr_x3c_17 (z i j c k : nat) : ex := (ESub (k_dipqr_x3c_16 (0 + z) i j c k) (EScale (1) 2 (ESum (0 + z) 2 (ESum (1 + z) 2 (ESum (2 + z) 3 (EMul (ET 20 [(0 + z); (1 + z); k; (2 + z)]) (ET 71 [i; j; c; (2 + z); (0 + z); (1 + z)]))))))).
Definition k_dipqr_x3c_18 (z i j c k : nat) : ex := (ESub (k_dipqr_x3c_17 (0 + z) i j c k) (EScale (1) 4 (ESum (0 + z) 0 (ESum (1 + z) 0 (ESum (2 + z) 1 (EMul (ET 13 [(0 + z); (1 + z); i; (2 + z)]) (ET 70 [(0 + z); j; (2 + z); c; (1 + z); k]))))))).
Definition k_dipqr_x3c_19 (z i j c k : nat) : ex := (ESub (k_dipqr_x3c_18 (0 + z) i j c k) (EScale (1) 2 (ESum (0 + z) 0 (ESum (1 + z) 2 (ESum (2 + z) 3 (EMul (ET 14 [(0 + z); (1 + z); i; (2 + z)]) (ET 71 [(0 + z); j; (2 + z); c; (1 + z); k]))))))).
Definition k_dipqr_x3c_20 (z i j c k : nat) : ex := (ESub (k_dipqr_x3c_19 (0 + z) i j c k) (k_dipqr_x3c_19 (0 + z) i k c j)).
Definition k_dipqr_x4b (z i j c d k l : nat) : ex := (EScale (-1) 2 (ESum (0 + z) 0 (EMul (ET 29 [c; (0 + z); k; l]) (ET 67 [i; j; d; (0 + z)])))).
Definition k_dipqr_x4b_1 (z i j c d k l : nat) : ex := (ESub (k_dipqr_x4b (0 + z) i j c d k l) (EScale (1) 2 (ESum (0 + z) 2 (EMul (ET 38 [c; (0 + z); k; j]) (ET 67 [i; (0 + z); d; l]))))).
Definition k_dipqr_x4b_2 (z i j c d k l : nat) : ex := (EAdd (k_dipqr_x4b_1 (0 + z) i j c d k l) (EScale (1) 4 (ESum (0 + z) 1 (EMul (ET 30 [c; d; k; (0 + z)]) (ET 67 [i; j; (0 + z); l]))))).
Definition k_dipqr_x4b_3 (z i j c d k l : nat) : ex := (EAdd (k_dipqr_x4b_2 (0 + z) i j c d k l) (EScale (1) 2 (ESum (0 + z) 1 (EMul (k_dipqr_X_aba_oovv (1 + z) i j d (0 + z)) (ET 10 [c; (0 + z); k; l]))))).
Definition k_dipqr_x4b_4 (z i j c d k l : nat) : ex := (ESub (k_dipqr_x4b_3 (0 + z) i j c d k l) (EScale (1) 4 (ESum (0 + z) 0 (EMul (k_dipqr_X_aba_oooo_1 (1 + z) i j (0 + z) l) (ET 10 [c; d; k; (0 + z)]))))).
Definition k_dipqr_x4b_5 (z i j c d k l : nat) : ex := (EAdd (k_dipqr_x4b_4 (0 + z) i j c d k l) (EScale (1) 2 (ESum (0 + z) 3 (EMul (k_dipqr_X_aba_ovvo_1 (1 + z) i (0 + z) c k) (ET 11 [d; (0 + z); l; j]))))).
Definition k_dipqr_x4b_6 (z i j c d k l : nat) : ex := (ESub (k_dipqr_x4b_5 (0 + z) i j c d k l) (EScale (1) 4 (ESum (0 + z) 0 (EMul (ET 12 [(0 + z); l]) (ET 69 [i; j; c; d; k; (0 + z)]))))).
Definition k_dipqr_x4b_7 (z i j c d k l : nat) : ex := (ESub (k_dipqr_x4b_6 (0 + z) i j c d k l) (EScale (1) 12 (ESum (0 + z) 2 (EMul (ET 19 [(0 + z); j]) (ET 69 [i; (0 + z); c; d; k; l]))))).
Definition k_dipqr_x4b_8 (z i j c d k l : nat) : ex := (EAdd (k_dipqr_x4b_7 (0 + z) i j c d k l) (EScale (1) 6 (ESum (0 + z) 1 (EMul (ET 7 [d; (0 + z)]) (ET 69 [i; j; c; (0 + z); k; l]))))).
Definition k_dipqr_x4b_9 (z i j c d k l : nat) : ex := (EAdd (k_dipqr_x4b_8 (0 + z) i j c d k l) (EScale (1) 24 (ESum (0 + z) 1 (ESum (1 + z) 1 (EMul (ET 41 [c; d; (0 + z); (1 + z)]) (ET 69 [i; j; (0 + z); (1 + z); k; l])))))).
Definition k_dipqr_x4b_10 (z i j c d k l : nat) : ex := (EAdd (k_dipqr_x4b_9 (0 + z) i j c d k l) (EScale (1) 8 (ESum (0 + z) 0 (ESum (1 + z) 0 (EMul (ET 28 [(0 + z); (1 + z); k; l]) (ET 69 [i; j; c; d; (0 + z); (1 + z)])))))).
Definition k_dipqr_x4b_11 (z i j c d k l : nat) : ex := (EAdd (k_dipqr_x4b_10 (0 + z) i j c d k l) (EScale (1) 4 (ESum (0 + z) 0 (ESum (1 + z) 2 (EMul (ET 34 [(0 + z); (1 + z); i; j]) (ET 69 [(0 + z); (1 + z); c; d; k; l])))))).
Definition k_dipqr_x4b_12 (z i j c d k l : nat) : ex := (EAdd (k_dipqr_x4b_11 (0 + z) i j c d k l) (EScale (1) 2 (ESum (0 + z) 0 (ESum (1 + z) 1 (EMul (ET 22 [d; (0 + z); l; (1 + z)]) (ET 69 [i; j; c; (1 + z); k; (0 + z)])))))).
Definition k_dipqr_x4b_13 (z i j c d k l : nat) : ex := (EAdd (k_dipqr_x4b_12 (0 + z) i j c d k l) (EScale (1) 2 (ESum (0 + z) 2 (ESum (1 + z) 3 (EMul (ET 23 [d; (0 + z); l; (1 + z)]) (ET 70 [i; j; c; (1 + z); k; (0 + z)])))))).
Definition k_dipqr_x4b_14 (z i j c d k l : nat) : ex := (ESub (k_dipqr_x4b_13 (0 + z) i j c d k l) (EScale (1) 6 (ESum (0 + z) 2 (ESum (1 + z) 1 (EMul (ET 36 [d; (0 + z); (1 + z); j]) (ET 69 [i; (0 + z); c; (1 + z); k; l])))))).
Definition k_dipqr_x4b_15 (z i j c d k l : nat) : ex := (EAdd (k_dipqr_x4b_14 (0 + z) i j c d k l) (EScale (1) 2 (ESum (0 + z) 1 (ESum (1 + z) 3 (EMul (EMul (k_dipqr_X_ab_vv (2 + z) (0 + z) (1 + z)) (ET 10 [(0 + z); d; i; l])) (ET 11 [c; (1 + z); k; j])))))).
Definition k_dipqr_x4b_16 (z i j c d k l : nat) : ex := (ESub (k_dipqr_x4b_15 (0 + z) i j c d k l) (k_dipqr_x4b_15 (0 + z) i j d c k l)).
Definition k_dipqr_x4b_17 (z i j c d k l : nat) : ex := (ESub (k_dipqr_x4b_16 (0 + z) i j c d k l) (k_dipqr_x4b_16 (0 + z) i j c d l k)).
Definition k_dipqr_x4b_18 (z i j c d k l : nat) : ex := (ESub (k_dipqr_x4b_17 (0 + z) i j c d k l) (EAdd (k_dipqr_x4b_17 (0 + z) k j c d i l) (k_dipqr_x4b_17 (0 + z) l j c d k i))).
Definition k_dipqr_x4c (z i j c d k l : nat) : ex := (EOpp (ESum (0 + z) 0 (EMul (ET 37 [(0 + z); d; k; l]) (ET 67 [i; j; c; (0 + z)])))).
Definition k_dipqr_x4c_1 (z i j c d k l : nat) : ex := (ESub (k_dipqr_x4c (0 + z) i j c d k l) (ESum (0 + z) 2 (EMul (ET 38 [c; (0 + z); k; l]) (ET 68 [i; j; d; (0 + z)])))).
Definition k_dipqr_x4c_2 (z i j c d k l : nat) : ex := (EAdd (k_dipqr_x4c_1 (0 + z) i j c d k l) (EScale (1) 2 (ESum (0 + z) 1 (EMul (ET 39 [c; d; (0 + z); l]) (ET 67 [i; j; (0 + z); k]))))).
Definition k_dipqr_x4c_3 (z i j c d k l : nat) : ex := (EAdd (k_dipqr_x4c_2 (0 + z) i j c d k l) (EScale (1) 2 (ESum (0 + z) 3 (EMul (ET 40 [c; d; k; (0 + z)]) (ET 68 [i; j; (0 + z); l]))))).
Definition k_dipqr_x4c_4 (z i j c d k l : nat) : ex := (ESub (k_dipqr_x4c_3 (0 + z) i j c d k l) (EScale (1) 4 (ESum (0 + z) 0 (EMul (ET 29 [c; (0 + z); k; i]) (ET 68 [(0 + z); j; d; l]))))).
Definition k_dipqr_x4c_5 (z i j c d k l : nat) : ex := (ESub (k_dipqr_x4c_4 (0 + z) i j c d k l) (EScale (1) 4 (ESum (0 + z) 2 (EMul (ET 32 [d; (0 + z); l; j]) (ET 67 [i; (0 + z); c; k]))))).
Definition k_dipqr_x4c_6 (z i j c d k l : nat) : ex := (ESub (k_dipqr_x4c_5 (0 + z) i j c d k l) (EScale (1) 2 (ESum (0 + z) 2 (EMul (k_dipqr_X_abb_oooo_1 (1 + z) i j (0 + z) l) (ET 11 [c; d; k; (0 + z)]))))).
Definition k_dipqr_x4c_7 (z i j c d k l : nat) : ex := (ESub (k_dipqr_x4c_6 (0 + z) i j c d k l) (EScale (1) 2 (ESum (0 + z) 0 (EMul (k_dipqr_X_aba_oooo_1 (1 + z) i j (0 + z) k) (ET 11 [c; d; (0 + z); l]))))).
Definition k_dipqr_x4c_8 (z i j c d k l : nat) : ex := (EAdd (k_dipqr_x4c_7 (0 + z) i j c d k l) (ESum (0 + z) 1 (EMul (k_dipqr_X_aba_oovv (1 + z) i j c (0 + z)) (ET 11 [(0 + z); d; k; l])))).
Definition k_dipqr_x4c_9 (z i j c d k l : nat) : ex := (EAdd (k_dipqr_x4c_8 (0 + z) i j c d k l) (ESum (0 + z) 3 (EMul (k_dipqr_X_abb_oovv (1 + z) i j d (0 + z)) (ET 11 [c; (0 + z); k; l])))).
Definition k_dipqr_x4c_10 (z i j c d k l : nat) : ex := (EAdd (k_dipqr_x4c_9 (0 + z) i j c d k l) (EScale (1) 4 (ESum (0 + z) 3 (EMul (k_dipqr_X_aba_ovvo_1 (1 + z) i (0 + z) c k) (ET 18 [(0 + z); d; j; l]))))).
Definition k_dipqr_x4c_11 (z i j c d k l : nat) : ex := (EAdd (k_dipqr_x4c_10 (0 + z) i j c d k l) (EScale (1) 4 (ESum (0 + z) 1 (EMul (k_dipqr_X_abb_vovo_1 (1 + z) (0 + z) j d l) (ET 10 [(0 + z); c; i; k]))))).
Definition k_dipqr_x4c_12 (z i j c d k l : nat) : ex := (ESub (k_dipqr_x4c_11 (0 + z) i j c d k l) (EScale (1) 2 (ESum (0 + z) 0 (EMul (ET 12 [(0 + z); i]) (ET 70 [(0 + z); j; c; d; k; l]))))).
Definition k_dipqr_x4c_13 (z i j c d k l : nat) : ex := (ESub (k_dipqr_x4c_12 (0 + z) i j c d k l) (EScale (1) 2 (ESum (0 + z) 2 (EMul (ET 19 [(0 + z); j]) (ET 70 [i; (0 + z); c; d; k; l]))))).
Definition k_dipqr_x4c_14 (z i j c d k l : nat) : ex := (EAdd (k_dipqr_x4c_13 (0 + z) i j c d k l) (EScale (1) 4 (ESum (0 + z) 1 (EMul (ET 7 [c; (0 + z)]) (ET 70 [i; j; (0 + z); d; k; l]))))).
Definition k_dipqr_x4c_15 (z i j c d k l : nat) : ex := (EAdd (k_dipqr_x4c_14 (0 + z) i j c d k l) (EScale (1) 4 (ESum (0 + z) 3 (EMul (ET 15 [d; (0 + z)]) (ET 70 [i; j; c; (0 + z); k; l]))))).
Definition k_dipqr_x4c_16 (z i j c d k l : nat) : ex := (EAdd (k_dipqr_x4c_15 (0 + z) i j c d k l) (EScale (1) 4 (ESum (0 + z) 1 (ESum (1 + z) 3 (EMul (ET 43 [c; d; (0 + z); (1 + z)]) (ET 70 [i; j; (0 + z); (1 + z); k; l])))))).
Definition k_dipqr_x4c_17 (z i j c d k l : nat) : ex := (EAdd (k_dipqr_x4c_16 (0 + z) i j c d k l) (ESum (0 + z) 0 (ESum (1 + z) 2 (EMul (ET 34 [(0 + z); (1 + z); k; l]) (ET 70 [i; j; c; d; (0 + z); (1 + z)]))))).
Definition k_dipqr_x4c_18 (z i j c d k l : nat) : ex := (EAdd (k_dipqr_x4c_17 (0 + z) i j c d k l) (EScale (1) 8 (ESum (0 + z) 0 (ESum (1 + z) 0 (EMul (ET 28 [(0 + z); (1 + z); i; k]) (ET 70 [(0 + z); j; c; d; (1 + z); l])))))).
Definition k_dipqr_x4c_19 (z i j c d k l : nat) : ex := (EAdd (k_dipqr_x4c_18 (0 + z) i j c d k l) (EScale (1) 8 (ESum (0 + z) 2 (ESum (1 + z) 2 (EMul (ET 31 [(0 + z); (1 + z); j; l]) (ET 70 [i; (0 + z); c; d; k; (1 + z)])))))).
Definition k_dipqr_x4c_20 (z i j c d k l : nat) : ex := (EAdd (k_dipqr_x4c_19 (0 + z) i j c d k l) (EScale (1) 2 (ESum (0 + z) 0 (ESum (1 + z) 1 (EMul (ET 22 [c; (0 + z); k; (1 + z)]) (ET 70 [i; j; (1 + z); d; (0 + z); l])))))).
Definition k_dipqr_x4c_21 (z i j c d k l : nat) : ex := (EAdd (k_dipqr_x4c_20 (0 + z) i j c d k l) (EScale (1) 2 (ESum (0 + z) 2 (ESum (1 + z) 3 (EMul (ET 23 [c; (0 + z); k; (1 + z)]) (ET 71 [i; j; (1 + z); d; (0 + z); l])))))).
Definition k_dipqr_x4c_22 (z i j c d k l : nat) : ex := (EAdd (k_dipqr_x4c_21 (0 + z) i j c d k l) (EScale (1) 2 (ESum (0 + z) 0 (ESum (1 + z) 1 (EMul (ET 26 [(0 + z); d; (1 + z); l]) (ET 69 [i; j; c; (1 + z); k; (0 + z)])))))).
Definition k_dipqr_x4c_23 (z i j c d k l : nat) : ex := (EAdd (k_dipqr_x4c_22 (0 + z) i j c d k l) (EScale (1) 2 (ESum (0 + z) 2 (ESum (1 + z) 3 (EMul (ET 25 [d; (0 + z); l; (1 + z)]) (ET 70 [i; j; c; (1 + z); k; (0 + z)])))))).
Definition k_dipqr_x4c_24 (z i j c d k l : nat) : ex := (ESub (k_dipqr_x4c_23 (0 + z) i j c d k l) (EScale (1) 2 (ESum (0 + z) 2 (ESum (1 + z) 1 (EMul (ET 36 [c; (0 + z); (1 + z); l]) (ET 70 [i; j; (1 + z); d; k; (0 + z)])))))).
Definition k_dipqr_x4c_25 (z i j c d k l : nat) : ex := (ESub (k_dipqr_x4c_24 (0 + z) i j c d k l) (EScale (1) 2 (ESum (0 + z) 0 (ESum (1 + z) 3 (EMul (ET 35 [(0 + z); d; k; (1 + z)]) (ET 70 [i; j; c; (1 + z); (0 + z); l])))))).
Definition k_dipqr_x4c_26 (z i j c d k l : nat) : ex := (EAdd (k_dipqr_x4c_25 (0 + z) i j c d k l) (EScale (1) 4 (ESum (0 + z) 1 (ESum (1 + z) 3 (EMul (EMul (k_dipqr_X_ab_vv (2 + z) (0 + z) (1 + z)) (ET 10 [(0 + z); c; i; k])) (ET 18 [(1 + z); d; j; l])))))).
Definition k_dipqr_x4c_27 (z i j c d k l : nat) : ex := (EAdd (k_dipqr_x4c_26 (0 + z) i j c d k l) (ESum (0 + z) 1 (ESum (1 + z) 3 (EMul (EMul (k_dipqr_X_ab_vv (2 + z) (0 + z) (1 + z)) (ET 11 [(0 + z); d; i; l])) (ET 11 [c; (1 + z); k; j]))))).
Definition k_dipqr_x4c_28 (z i j c d k l : nat) : ex := (ESub (k_dipqr_x4c_27 (0 + z) i j c d k l) (k_dipqr_x4c_27 (0 + z) k j c d i l)).
Definition k_dipqr_x4c_29 (z i j c d k l : nat) : ex := (ESub (k_dipqr_x4c_28 (0 + z) i j c d k l) (k_dipqr_x4c_28 (0 + z) i l c d k j)).
Definition k_dipqr_x4d (z i j c d k l : nat) : ex := (EScale (-1) 2 (ESum (0 + z) 2 (EMul (ET 32 [c; (0 + z); k; l]) (ET 68 [i; j; d; (0 + z)])))).
Definition k_dipqr_x4d_1 (z i j c d k l : nat) : ex := (ESub (k_dipqr_x4d (0 + z) i j c d k l) (EScale (1) 2 (ESum (0 + z) 0 (EMul (ET 37 [(0 + z); c; i; k]) (ET 68 [(0 + z); j; d; l]))))).
Definition k_dipqr_x4d_2 (z i j c d k l : nat) : ex := (EAdd (k_dipqr_x4d_1 (0 + z) i j c d k l) (EScale (1) 4 (ESum (0 + z) 3 (EMul (ET 33 [c; d; k; (0 + z)]) (ET 68 [i; j; (0 + z); l]))))).
Definition k_dipqr_x4d_3 (z i j c d k l : nat) : ex := (ESub (k_dipqr_x4d_2 (0 + z) i j c d k l) (EScale (1) 4 (ESum (0 + z) 2 (EMul (k_dipqr_X_abb_oooo_1 (1 + z) i j (0 + z) l) (ET 18 [c; d; k; (0 + z)]))))).
Definition k_dipqr_x4d_4 (z i j c d k l : nat) : ex := (EAdd (k_dipqr_x4d_3 (0 + z) i j c d k l) (EScale (1) 2 (ESum (0 + z) 3 (EMul (k_dipqr_X_abb_oovv (1 + z) i j d (0 + z)) (ET 18 [c; (0 + z); k; l]))))).
Definition k_dipqr_x4d_5 (z i j c d k l : nat) : ex := (EAdd (k_dipqr_x4d_4 (0 + z) i j c d k l) (EScale (1) 2 (ESum (0 + z) 1 (EMul (k_dipqr_X_abb_vovo_1 (1 + z) (0 + z) j c k) (ET 11 [(0 + z); d; i; l]))))).
Definition k_dipqr_x4d_6 (z i j c d k l : nat) : ex := (ESub (k_dipqr_x4d_5 (0 + z) i j c d k l) (EScale (1) 4 (ESum (0 + z) 2 (EMul (ET 19 [(0 + z); l]) (ET 71 [i; j; c; d; k; (0 + z)]))))).
Definition k_dipqr_x4d_7 (z i j c d k l : nat) : ex := (ESub (k_dipqr_x4d_6 (0 + z) i j c d k l) (EScale (1) 12 (ESum (0 + z) 0 (EMul (ET 12 [(0 + z); i]) (ET 71 [(0 + z); j; c; d; k; l]))))).
Definition k_dipqr_x4d_8 (z i j c d k l : nat) : ex := (EAdd (k_dipqr_x4d_7 (0 + z) i j c d k l) (EScale (1) 6 (ESum (0 + z) 3 (EMul (ET 15 [d; (0 + z)]) (ET 71 [i; j; c; (0 + z); k; l]))))).
Definition k_dipqr_x4d_9 (z i j c d k l : nat) : ex := (EAdd (k_dipqr_x4d_8 (0 + z) i j c d k l) (EScale (1) 24 (ESum (0 + z) 3 (ESum (1 + z) 3 (EMul (ET 45 [c; d; (0 + z); (1 + z)]) (ET 71 [i; j; (0 + z); (1 + z); k; l])))))).
Definition k_dipqr_x4d_10 (z i j c d k l : nat) : ex := (EAdd (k_dipqr_x4d_9 (0 + z) i j c d k l) (EScale (1) 8 (ESum (0 + z) 2 (ESum (1 + z) 2 (EMul (ET 31 [(0 + z); (1 + z); k; l]) (ET 71 [i; j; c; d; (0 + z); (1 + z)])))))).
Definition k_dipqr_x4d_11 (z i j c d k l : nat) : ex := (EAdd (k_dipqr_x4d_10 (0 + z) i j c d k l) (EScale (1) 4 (ESum (0 + z) 0 (ESum (1 + z) 2 (EMul (ET 34 [(0 + z); (1 + z); i; j]) (ET 71 [(0 + z); (1 + z); c; d; k; l])))))).
Definition k_dipqr_x4d_12 (z i j c d k l : nat) : ex := (EAdd (k_dipqr_x4d_11 (0 + z) i j c d k l) (EScale (1) 2 (ESum (0 + z) 0 (ESum (1 + z) 1 (EMul (ET 26 [(0 + z); d; (1 + z); l]) (ET 70 [i; j; (1 + z); c; (0 + z); k])))))).
Definition k_dipqr_x4d_13 (z i j c d k l : nat) : ex := (EAdd (k_dipqr_x4d_12 (0 + z) i j c d k l) (EScale (1) 2 (ESum (0 + z) 2 (ESum (1 + z) 3 (EMul (ET 25 [d; (0 + z); l; (1 + z)]) (ET 71 [i; j; c; (1 + z); k; (0 + z)])))))).
Definition k_dipqr_x4d_14 (z i j c d k l : nat) : ex := (ESub (k_dipqr_x4d_13 (0 + z) i j c d k l) (EScale (1) 6 (ESum (0 + z) 0 (ESum (1 + z) 3 (EMul (ET 35 [(0 + z); d; i; (1 + z)]) (ET 71 [(0 + z); j; c; (1 + z); k; l])))))).
Definition k_dipqr_x4d_15 (z i j c d k l : nat) : ex := (EAdd (k_dipqr_x4d_14 (0 + z) i j c d k l) (EScale (1) 2 (ESum (0 + z) 1 (ESum (1 + z) 3 (EMul (EMul (k_dipqr_X_ab_vv (2 + z) (0 + z) (1 + z)) (ET 11 [(0 + z); d; i; l])) (ET 18 [(1 + z); c; j; k])))))).
Definition k_dipqr_x4d_16 (z i j c d k l : nat) : ex := (ESub (k_dipqr_x4d_15 (0 + z) i j c d k l) (k_dipqr_x4d_15 (0 + z) i j d c k l)).
Definition k_dipqr_x4d_17 (z i j c d k l : nat) : ex := (ESub (k_dipqr_x4d_16 (0 + z) i j c d k l) (k_dipqr_x4d_16 (0 + z) i j c d l k)).
Definition k_dipqr_x4d_18 (z i j c d k l : nat) : ex := (ESub (k_dipqr_x4d_17 (0 + z) i j c d k l) (EAdd (k_dipqr_x4d_17 (0 + z) i k c d j l) (k_dipqr_x4d_17 (0 + z) i l c d k j))).
Section S_dipq.
Variables (d : dims) (X X' : ints) (T T' : amps) (Y : dipqv).
Hypothesis (HX : ints_agree d X X') (Ta : forall a b i j, x_aa T a b i j = x_aa T' a b i j) (Tb : forall a b i j, x_ab T a b i j = x_ab T' a b i j) (Tc : forall a b i j, x_bb T a b i j = x_bb T' a b i j).
Lemma dipq_same_ab p q : p < noa d -> q < nob d -> dipq_ab (dipq_HR d X T Y) p q = dipq_ab (dipq_HR d X' T' Y) p q.
Proof. intros. apply (skel d X X' T T' [ap2 (dipq_ab Y); ap4 (dipq_aba Y); ap4 (dipq_abb Y); ap6 (dipq_abaa Y); ap6 (dipq_abab Y); ap6 (dipq_abbb Y)] [(0, 0); (1, 2)] (k_dipqr_x2b_11 10 0 1) (venv [p; q]) HX Ta Tb Tc); [cbn [length]; lia|vm_compute; reflexivity|rng6]. Qed.
Lemma dipq_same_aba p q r s : p < noa d -> q < nob d -> r < nua d -> s < noa d -> dipq_aba (dipq_HR d X T Y) p q r s = dipq_aba (dipq_HR d X' T' Y) p q r s.
Proof. intros. apply (skel d X X' T T' [ap2 (dipq_ab Y); ap4 (dipq_aba Y); ap4 (dipq_abb Y); ap6 (dipq_abaa Y); ap6 (dipq_abab Y); ap6 (dipq_abbb Y)] [(0, 0); (1, 2); (2, 1); (3, 0)] (k_dipqr_x3b_20 10 0 1 2 3) (venv [p; q; r; s]) HX Ta Tb Tc); [cbn [length]; lia|vm_compute; reflexivity|rng6]. Qed.
Lemma dipq_same_abb p q r s : p < noa d -> q < nob d -> r < nub d -> s < nob d -> dipq_abb (dipq_HR d X T Y) p q r s = dipq_abb (dipq_HR d X' T' Y) p q r s.
Proof. intros. apply (skel d X X' T T' [ap2 (dipq_ab Y); ap4 (dipq_aba Y); ap4 (dipq_abb Y); ap6 (dipq_abaa Y); ap6 (dipq_abab Y); ap6 (dipq_abbb Y)] [(0, 0); (1, 2); (2, 3); (3, 2)] (k_dipqr_x3c_20 10 0 1 2 3) (venv [p; q; r; s]) HX Ta Tb Tc); [cbn [length]; lia|vm_compute; reflexivity|rng6]. Qed.
Lemma dipq_same_abaa p q r s t u : p < noa d -> q < nob d -> r < nua d -> s < nua d -> t < noa d -> u < noa d -> dipq_abaa (dipq_HR d X T Y) p q r s t u = dipq_abaa (dipq_HR d X' T' Y) p q r s t u.
Proof. intros. apply (skel d X X' T T' [ap2 (dipq_ab Y); ap4 (dipq_aba Y); ap4 (dipq_abb Y); ap6 (dipq_abaa Y); ap6 (dipq_abab Y); ap6 (dipq_abbb Y)] [(0, 0); (1, 2); (2, 1); (3, 1); (4, 0); (5, 0)] (k_dipqr_x4b_18 10 0 1 2 3 4 5) (venv [p; q; r; s; t; u]) HX Ta Tb Tc); [cbn [length]; lia|vm_compute; reflexivity|rng6]. Qed.
Lemma dipq_same_abab p q r s t u : p < noa d -> q < nob d -> r < nua d -> s < nub d -> t < noa d -> u < nob d -> dipq_abab (dipq_HR d X T Y) p q r s t u = dipq_abab (dipq_HR d X' T' Y) p q r s t u.
Proof. intros. apply (skel d X X' T T' [ap2 (dipq_ab Y); ap4 (dipq_aba Y); ap4 (dipq_abb Y); ap6 (dipq_abaa Y); ap6 (dipq_abab Y); ap6 (dipq_abbb Y)] [(0, 0); (1, 2); (2, 1); (3, 3); (4, 0); (5, 2)] (k_dipqr_x4c_29 10 0 1 2 3 4 5) (venv [p; q; r; s; t; u]) HX Ta Tb Tc); [cbn [length]; lia|vm_compute; reflexivity|rng6]. Qed.
Lemma dipq_same_abbb p q r s t u : p < noa d -> q < nob d -> r < nub d -> s < nub d -> t < nob d -> u < nob d -> dipq_abbb (dipq_HR d X T Y) p q r s t u = dipq_abbb (dipq_HR d X' T' Y) p q r s t u.
Proof. intros. apply (skel d X X' T T' [ap2 (dipq_ab Y); ap4 (dipq_aba Y); ap4 (dipq_abb Y); ap6 (dipq_abaa Y); ap6 (dipq_abab Y); ap6 (dipq_abbb Y)] [(0, 0); (1, 2); (2, 3); (3, 3); (4, 2); (5, 2)] (k_dipqr_x4d_18 10 0 1 2 3 4 5) (venv [p; q; r; s; t; u]) HX Ta Tb Tc); [cbn [length]; lia|vm_compute; reflexivity|rng6]. Qed.
Lemma dipq_root_same w : dipq_root d (dipq_HR d X T Y) Y w <-> dipq_root d (dipq_HR d X' T' Y) Y w.
Proof.
  unfold dipq_root. split; intros G; decompose [and] G; repeat match goal with |- _ /\ _ => split end; intros; first [rewrite dipq_same_ab by assumption | rewrite dipq_same_aba by assumption | rewrite dipq_same_abb by assumption | rewrite dipq_same_abaa by assumption | rewrite dipq_same_abab by assumption | rewrite dipq_same_abbb by assumption | rewrite <- dipq_same_ab by assumption | rewrite <- dipq_same_aba by assumption | rewrite <- dipq_same_abb by assumption | rewrite <- dipq_same_abaa by assumption | rewrite <- dipq_same_abab by assumption | rewrite <- dipq_same_abbb by assumption]; auto.
Qed.
End S_dipq.
Definition k_deaqr_X_ab_ov (z m b : nat) : ex := (EAdd (EAdd (ESum (0 + z) 1 (ESum (1 + z) 3 (EMul (ET 17 [m; b; (0 + z); (1 + z)]) (ET 66 [(0 + z); (1 + z)])))) (EScale (1) 2 (ESum (0 + z) 0 (ESum (1 + z) 1 (ESum (2 + z) 1 (EMul (ET 1 [m; (0 + z); (1 + z); (2 + z)]) (ET 67 [(1 + z); b; (2 + z); (0 + z)]))))))) (ESum (0 + z) 2 (ESum (1 + z) 1 (ESum (2 + z) 3 (EMul (ET 3 [m; (0 + z); (1 + z); (2 + z)]) (ET 68 [(1 + z); b; (2 + z); (0 + z)])))))).
Definition k_deaqr_X_ab_vo (z a m : nat) : ex := (EAdd (EAdd (ESum (0 + z) 1 (ESum (1 + z) 3 (EMul (ET 9 [a; m; (0 + z); (1 + z)]) (ET 66 [(0 + z); (1 + z)])))) (EScale (1) 2 (ESum (0 + z) 2 (ESum (1 + z) 3 (ESum (2 + z) 3 (EMul (ET 6 [(0 + z); m; (1 + z); (2 + z)]) (ET 68 [a; (2 + z); (1 + z); (0 + z)]))))))) (ESum (0 + z) 0 (ESum (1 + z) 1 (ESum (2 + z) 3 (EMul (ET 3 [(0 + z); m; (1 + z); (2 + z)]) (ET 67 [a; (2 + z); (1 + z); (0 + z)])))))).
Definition k_deaqr_X_ab_oo (z m n : nat) : ex := (ESum (0 + z) 1 (ESum (1 + z) 3 (EMul (ET 3 [m; n; (0 + z); (1 + z)]) (ET 66 [(0 + z); (1 + z)])))).
Definition k_deaqr_X_aba_vvoo (z a b m k : nat) : ex := (EAdd (EAdd (EAdd (ESub (EAdd (EAdd (EAdd (ESum (0 + z) 0 (ESum (1 + z) 1 (EMul (ET 13 [m; (0 + z); k; (1 + z)]) (ET 67 [a; b; (1 + z); (0 + z)])))) (ESum (0 + z) 2 (ESum (1 + z) 3 (EMul (ET 14 [m; (0 + z); k; (1 + z)]) (ET 68 [a; b; (1 + z); (0 + z)]))))) (EScale (1) 2 (ESum (0 + z) 1 (ESum (1 + z) 1 (EMul (ET 8 [a; m; (0 + z); (1 + z)]) (ET 67 [(0 + z); b; (1 + z); k])))))) (ESum (0 + z) 1 (ESum (1 + z) 3 (EMul (ET 17 [m; b; (0 + z); (1 + z)]) (ET 67 [a; (1 + z); (0 + z); k]))))) (ESum (0 + z) 1 (EMul (ET 22 [a; m; k; (0 + z)]) (ET 66 [(0 + z); b])))) (ESum (0 + z) 3 (EMul (ET 35 [m; b; k; (0 + z)]) (ET 66 [a; (0 + z)])))) (EScale (1) 2 (ESum (0 + z) 0 (ESum (1 + z) 1 (ESum (2 + z) 1 (EMul (ET 1 [m; (0 + z); (1 + z); (2 + z)]) (ET 69 [a; b; (1 + z); (2 + z); k; (0 + z)]))))))) (ESum (0 + z) 2 (ESum (1 + z) 1 (ESum (2 + z) 3 (EMul (ET 3 [m; (0 + z); (1 + z); (2 + z)]) (ET 70 [a; b; (1 + z); (2 + z); k; (0 + z)])))))).
Definition k_deaqr_X_aba_vvvv (z a b c e : nat) : ex := (ESub (ESub (EAdd (EAdd (ESub (EAdd (ESum (0 + z) 0 (ESum (1 + z) 1 (EMul (ET 8 [c; (0 + z); e; (1 + z)]) (ET 67 [a; b; (1 + z); (0 + z)])))) (ESum (0 + z) 2 (ESum (1 + z) 3 (EMul (ET 9 [c; (0 + z); e; (1 + z)]) (ET 68 [a; b; (1 + z); (0 + z)]))))) (EScale (1) 2 (ESum (0 + z) 0 (ESum (1 + z) 3 (EMul (ET 17 [(0 + z); b; e; (1 + z)]) (ET 67 [a; (1 + z); c; (0 + z)])))))) (ESum (0 + z) 3 (EMul (ET 43 [c; b; e; (0 + z)]) (ET 66 [a; (0 + z)])))) (EScale (1) 2 (ESum (0 + z) 1 (EMul (ET 41 [a; c; (0 + z); e]) (ET 66 [(0 + z); b]))))) (EScale (1) 4 (ESum (0 + z) 0 (ESum (1 + z) 0 (ESum (2 + z) 1 (EMul (ET 1 [(0 + z); (1 + z); e; (2 + z)]) (ET 69 [a; b; c; (2 + z); (0 + z); (1 + z)]))))))) (EScale (1) 2 (ESum (0 + z) 0 (ESum (1 + z) 2 (ESum (2 + z) 3 (EMul (ET 3 [(0 + z); (1 + z); e; (2 + z)]) (ET 70 [a; b; c; (2 + z); (0 + z); (1 + z)]))))))).
Definition k_deaqr_X_aba_vvvv_1 (z a b c e : nat) : ex := (ESub (k_deaqr_X_aba_vvvv (0 + z) a b c e) (k_deaqr_X_aba_vvvv (0 + z) c b a e)).
Definition k_deaqr_X_aba_vovo (z a m c k : nat) : ex := (EAdd (EAdd (EAdd (ESub (ESum (0 + z) 1 (ESum (1 + z) 3 (EMul (ET 9 [a; m; (0 + z); (1 + z)]) (ET 67 [(0 + z); (1 + z); c; k])))) (EScale (1) 2 (ESum (0 + z) 0 (ESum (1 + z) 3 (EMul (ET 14 [(0 + z); m; k; (1 + z)]) (ET 67 [a; (1 + z); c; (0 + z)])))))) (ESum (0 + z) 3 (EMul (ET 23 [c; m; k; (0 + z)]) (ET 66 [a; (0 + z)])))) (EScale (1) 4 (ESum (0 + z) 2 (ESum (1 + z) 3 (ESum (2 + z) 3 (EMul (ET 6 [m; (0 + z); (1 + z); (2 + z)]) (ET 70 [a; (1 + z); c; (2 + z); k; (0 + z)]))))))) (EScale (1) 2 (ESum (0 + z) 0 (ESum (1 + z) 1 (ESum (2 + z) 3 (EMul (ET 3 [(0 + z); m; (1 + z); (2 + z)]) (ET 69 [a; (2 + z); c; (1 + z); k; (0 + z)]))))))).
Definition k_deaqr_X_aba_vovo_1 (z a m c k : nat) : ex := (ESub (k_deaqr_X_aba_vovo (0 + z) a m c k) (k_deaqr_X_aba_vovo (0 + z) c m a k)).
Definition k_deaqr_X_abb_vvoo (z a b m k : nat) : ex := (EAdd (EAdd (ESub (EAdd (EAdd (EAdd (EAdd (ESum (0 + z) 0 (ESum (1 + z) 1 (EMul (ET 21 [(0 + z); m; (1 + z); k]) (ET 67 [a; b; (1 + z); (0 + z)])))) (ESum (0 + z) 2 (ESum (1 + z) 3 (EMul (ET 20 [m; (0 + z); k; (1 + z)]) (ET 68 [a; b; (1 + z); (0 + z)]))))) (EScale (1) 2 (ESum (0 + z) 3 (ESum (1 + z) 3 (EMul (ET 16 [b; m; (0 + z); (1 + z)]) (ET 68 [a; (0 + z); (1 + z); k])))))) (ESum (0 + z) 1 (ESum (1 + z) 3 (EMul (ET 9 [a; m; (0 + z); (1 + z)]) (ET 68 [(0 + z); b; (1 + z); k]))))) (ESum (0 + z) 1 (EMul (ET 36 [a; m; (0 + z); k]) (ET 66 [(0 + z); b])))) (ESum (0 + z) 3 (EMul (ET 25 [b; m; k; (0 + z)]) (ET 66 [a; (0 + z)])))) (EScale (1) 2 (ESum (0 + z) 2 (ESum (1 + z) 3 (ESum (2 + z) 3 (EMul (ET 6 [m; (0 + z); (1 + z); (2 + z)]) (ET 71 [a; b; (1 + z); (2 + z); k; (0 + z)]))))))) (ESum (0 + z) 0 (ESum (1 + z) 1 (ESum (2 + z) 3 (EMul (ET 3 [(0 + z); m; (1 + z); (2 + z)]) (ET 70 [a; b; (1 + z); (2 + z); (0 + z); k])))))).
Definition k_deaqr_X_abb_vvvv (z a b c e : nat) : ex := (ESub (ESub (EAdd (EAdd (ESub (EAdd (ESum (0 + z) 0 (ESum (1 + z) 1 (EMul (ET 17 [(0 + z); c; (1 + z); e]) (ET 67 [a; b; (1 + z); (0 + z)])))) (ESum (0 + z) 2 (ESum (1 + z) 3 (EMul (ET 16 [c; (0 + z); e; (1 + z)]) (ET 68 [a; b; (1 + z); (0 + z)]))))) (EScale (1) 2 (ESum (0 + z) 2 (ESum (1 + z) 1 (EMul (ET 9 [a; (0 + z); (1 + z); e]) (ET 68 [(1 + z); b; c; (0 + z)])))))) (EScale (1) 2 (ESum (0 + z) 3 (EMul (ET 45 [b; c; (0 + z); e]) (ET 66 [a; (0 + z)]))))) (ESum (0 + z) 1 (EMul (ET 43 [a; c; (0 + z); e]) (ET 66 [(0 + z); b])))) (EScale (1) 4 (ESum (0 + z) 2 (ESum (1 + z) 2 (ESum (2 + z) 3 (EMul (ET 6 [(0 + z); (1 + z); e; (2 + z)]) (ET 71 [a; b; c; (2 + z); (0 + z); (1 + z)]))))))) (EScale (1) 2 (ESum (0 + z) 0 (ESum (1 + z) 2 (ESum (2 + z) 1 (EMul (ET 3 [(0 + z); (1 + z); (2 + z); e]) (ET 70 [a; b; (2 + z); c; (0 + z); (1 + z)]))))))).
Definition k_deaqr_X_abb_vvvv_1 (z a b c e : nat) : ex := (ESub (k_deaqr_X_abb_vvvv (0 + z) a b c e) (k_deaqr_X_abb_vvvv (0 + z) a c b e)).
Definition k_deaqr_X_abb_ovvo (z m b d l : nat) : ex := (EAdd (EAdd (EAdd (EAdd (EScale (-1) 2 (ESum (0 + z) 2 (ESum (1 + z) 1 (EMul (ET 21 [m; (0 + z); (1 + z); l]) (ET 68 [(1 + z); b; d; (0 + z)]))))) (ESum (0 + z) 1 (ESum (1 + z) 3 (EMul (ET 17 [m; b; (0 + z); (1 + z)]) (ET 68 [(0 + z); (1 + z); d; l]))))) (ESum (0 + z) 1 (EMul (ET 26 [m; d; (0 + z); l]) (ET 66 [(0 + z); b])))) (EScale (1) 4 (ESum (0 + z) 0 (ESum (1 + z) 1 (ESum (2 + z) 1 (EMul (ET 1 [m; (0 + z); (1 + z); (2 + z)]) (ET 70 [(1 + z); b; (2 + z); d; (0 + z); l]))))))) (EScale (1) 2 (ESum (0 + z) 2 (ESum (1 + z) 1 (ESum (2 + z) 3 (EMul (ET 3 [m; (0 + z); (1 + z); (2 + z)]) (ET 71 [(1 + z); b; (2 + z); d; (0 + z); l]))))))).
Definition k_deaqr_X_abb_ovvo_1 (z m b d l : nat) : ex := (ESub (k_deaqr_X_abb_ovvo (0 + z) m b d l) (k_deaqr_X_abb_ovvo (0 + z) m d b l)).
Definition k_deaqr_x2b (z a b : nat) : ex := (ESum (0 + z) 1 (EMul (ET 7 [a; (0 + z)]) (ET 66 [(0 + z); b]))).
Definition k_deaqr_x2b_1 (z a b : nat) : ex := (EAdd (k_deaqr_x2b (0 + z) a b) (ESum (0 + z) 3 (EMul (ET 15 [b; (0 + z)]) (ET 66 [a; (0 + z)])))).
Definition k_deaqr_x2b_2 (z a b : nat) : ex := (EAdd (k_deaqr_x2b_1 (0 + z) a b) (ESum (0 + z) 1 (ESum (1 + z) 3 (EMul (ET 43 [a; b; (0 + z); (1 + z)]) (ET 66 [(0 + z); (1 + z)]))))).
Definition k_deaqr_x2b_3 (z a b : nat) : ex := (EAdd (k_deaqr_x2b_2 (0 + z) a b) (ESum (0 + z) 0 (ESum (1 + z) 1 (EMul (ET 0 [(0 + z); (1 + z)]) (ET 67 [a; b; (1 + z); (0 + z)]))))).
Definition k_deaqr_x2b_4 (z a b : nat) : ex := (EAdd (k_deaqr_x2b_3 (0 + z) a b) (ESum (0 + z) 2 (ESum (1 + z) 3 (EMul (ET 5 [(0 + z); (1 + z)]) (ET 68 [a; b; (1 + z); (0 + z)]))))).
Definition k_deaqr_x2b_5 (z a b : nat) : ex := (EAdd (k_deaqr_x2b_4 (0 + z) a b) (ESum (0 + z) 0 (ESum (1 + z) 1 (ESum (2 + z) 3 (EMul (ET 17 [(0 + z); b; (1 + z); (2 + z)]) (ET 67 [a; (2 + z); (1 + z); (0 + z)])))))).
Definition k_deaqr_x2b_6 (z a b : nat) : ex := (EAdd (k_deaqr_x2b_5 (0 + z) a b) (EScale (1) 2 (ESum (0 + z) 0 (ESum (1 + z) 1 (ESum (2 + z) 1 (EMul (ET 8 [a; (0 + z); (1 + z); (2 + z)]) (ET 67 [(1 + z); b; (2 + z); (0 + z)]))))))).
Definition k_deaqr_x2b_7 (z a b : nat) : ex := (EAdd (k_deaqr_x2b_6 (0 + z) a b) (EScale (1) 2 (ESum (0 + z) 2 (ESum (1 + z) 3 (ESum (2 + z) 3 (EMul (ET 16 [b; (0 + z); (1 + z); (2 + z)]) (ET 68 [a; (1 + z); (2 + z); (0 + z)]))))))).
Definition k_deaqr_x2b_8 (z a b : nat) : ex := (EAdd (k_deaqr_x2b_7 (0 + z) a b) (ESum (0 + z) 2 (ESum (1 + z) 1 (ESum (2 + z) 3 (EMul (ET 9 [a; (0 + z); (1 + z); (2 + z)]) (ET 68 [(1 + z); b; (2 + z); (0 + z)])))))).
Definition k_deaqr_x2b_9 (z a b : nat) : ex := (EAdd (k_deaqr_x2b_8 (0 + z) a b) (EScale (1) 4 (ESum (0 + z) 0 (ESum (1 + z) 0 (ESum (2 + z) 1 (ESum (3 + z) 1 (EMul (ET 1 [(0 + z); (1 + z); (2 + z); (3 + z)]) (ET 69 [a; b; (2 + z); (3 + z); (0 + z); (1 + z)])))))))).
Definition k_deaqr_x2b_10 (z a b : nat) : ex := (EAdd (k_deaqr_x2b_9 (0 + z) a b) (ESum (0 + z) 0 (ESum (1 + z) 2 (ESum (2 + z) 1 (ESum (3 + z) 3 (EMul (ET 3 [(0 + z); (1 + z); (2 + z); (3 + z)]) (ET 70 [a; b; (2 + z); (3 + z); (0 + z); (1 + z)]))))))).
Definition k_deaqr_x2b_11 (z a b : nat) : ex := (EAdd (k_deaqr_x2b_10 (0 + z) a b) (EScale (1) 4 (ESum (0 + z) 2 (ESum (1 + z) 2 (ESum (2 + z) 3 (ESum (3 + z) 3 (EMul (ET 6 [(0 + z); (1 + z); (2 + z); (3 + z)]) (ET 71 [a; b; (2 + z); (3 + z); (0 + z); (1 + z)])))))))).
Definition k_deaqr_x3b (z a b c k : nat) : ex := (EScale (1) 2 (ESum (0 + z) 1 (EMul (ET 30 [c; a; k; (0 + z)]) (ET 66 [(0 + z); b])))).
Definition k_deaqr_x3b_1 (z a b c k : nat) : ex := (EAdd (k_deaqr_x3b (0 + z) a b c k) (ESum (0 + z) 3 (EMul (ET 40 [c; b; k; (0 + z)]) (ET 66 [a; (0 + z)])))).
Definition k_deaqr_x3b_2 (z a b c k : nat) : ex := (EAdd (k_deaqr_x3b_1 (0 + z) a b c k) (ESum (0 + z) 1 (EMul (ET 7 [a; (0 + z)]) (ET 67 [(0 + z); b; c; k])))).
Definition k_deaqr_x3b_3 (z a b c k : nat) : ex := (EAdd (k_deaqr_x3b_2 (0 + z) a b c k) (EScale (1) 2 (ESum (0 + z) 3 (EMul (ET 15 [b; (0 + z)]) (ET 67 [a; (0 + z); c; k]))))).
Definition k_deaqr_x3b_4 (z a b c k : nat) : ex := (EAdd (k_deaqr_x3b_3 (0 + z) a b c k) (ESum (0 + z) 1 (ESum (1 + z) 3 (EMul (ET 43 [a; b; (0 + z); (1 + z)]) (ET 67 [(0 + z); (1 + z); c; k]))))).
Definition k_deaqr_x3b_5 (z a b c k : nat) : ex := (EAdd (k_deaqr_x3b_4 (0 + z) a b c k) (EScale (1) 4 (ESum (0 + z) 1 (ESum (1 + z) 1 (EMul (ET 41 [a; c; (0 + z); (1 + z)]) (ET 67 [(0 + z); b; (1 + z); k])))))).
Definition k_deaqr_x3b_6 (z a b c k : nat) : ex := (EAdd (k_deaqr_x3b_5 (0 + z) a b c k) (ESum (0 + z) 0 (ESum (1 + z) 1 (EMul (ET 22 [c; (0 + z); k; (1 + z)]) (ET 67 [a; b; (1 + z); (0 + z)]))))).
Definition k_deaqr_x3b_7 (z a b c k : nat) : ex := (EAdd (k_deaqr_x3b_6 (0 + z) a b c k) (ESum (0 + z) 2 (ESum (1 + z) 3 (EMul (ET 23 [c; (0 + z); k; (1 + z)]) (ET 68 [a; b; (1 + z); (0 + z)]))))).
Definition k_deaqr_x3b_8 (z a b c k : nat) : ex := (ESub (k_deaqr_x3b_7 (0 + z) a b c k) (EScale (1) 2 (ESum (0 + z) 0 (ESum (1 + z) 3 (EMul (ET 35 [(0 + z); b; k; (1 + z)]) (ET 67 [a; (1 + z); c; (0 + z)])))))).
Definition k_deaqr_x3b_9 (z a b c k : nat) : ex := (ESub (k_deaqr_x3b_8 (0 + z) a b c k) (EScale (1) 2 (ESum (0 + z) 0 (EMul (k_deaqr_X_ab_ov (1 + z) (0 + z) b) (ET 10 [a; c; (0 + z); k]))))).
Definition k_deaqr_x3b_10 (z a b c k : nat) : ex := (ESub (k_deaqr_x3b_9 (0 + z) a b c k) (ESum (0 + z) 2 (EMul (k_deaqr_X_ab_vo (1 + z) a (0 + z)) (ET 11 [c; b; k; (0 + z)])))).
Definition k_deaqr_x3b_11 (z a b c k : nat) : ex := (ESub (k_deaqr_x3b_10 (0 + z) a b c k) (EScale (1) 2 (ESum (0 + z) 0 (EMul (ET 12 [(0 + z); k]) (ET 67 [a; b; c; (0 + z)]))))).
Definition k_deaqr_x3b_12 (z a b c k : nat) : ex := (EAdd (k_deaqr_x3b_11 (0 + z) a b c k) (EScale (1) 2 (ESum (0 + z) 0 (ESum (1 + z) 1 (EMul (ET 0 [(0 + z); (1 + z)]) (ET 69 [a; b; c; (1 + z); k; (0 + z)])))))).
Definition k_deaqr_x3b_13 (z a b c k : nat) : ex := (EAdd (k_deaqr_x3b_12 (0 + z) a b c k) (EScale (1) 2 (ESum (0 + z) 2 (ESum (1 + z) 3 (EMul (ET 5 [(0 + z); (1 + z)]) (ET 70 [a; b; c; (1 + z); k; (0 + z)])))))).
Definition k_deaqr_x3b_14 (z a b c k : nat) : ex := (ESub (k_deaqr_x3b_13 (0 + z) a b c k) (EScale (1) 4 (ESum (0 + z) 0 (ESum (1 + z) 0 (ESum (2 + z) 1 (EMul (ET 13 [(0 + z); (1 + z); k; (2 + z)]) (ET 69 [a; b; c; (2 + z); (0 + z); (1 + z)]))))))).
Definition k_deaqr_x3b_15 (z a b c k : nat) : ex := (ESub (k_deaqr_x3b_14 (0 + z) a b c k) (EScale (1) 2 (ESum (0 + z) 0 (ESum (1 + z) 2 (ESum (2 + z) 3 (EMul (ET 14 [(0 + z); (1 + z); k; (2 + z)]) (ET 70 [a; b; c; (2 + z); (0 + z); (1 + z)]))))))).
Definition k_deaqr_x3b_16 (z a b c k : nat) : ex := (EAdd (k_deaqr_x3b_15 (0 + z) a b c k) (EScale (1) 2 (ESum (0 + z) 0 (ESum (1 + z) 1 (ESum (2 + z) 1 (EMul (ET 8 [c; (0 + z); (1 + z); (2 + z)]) (ET 69 [a; b; (1 + z); (2 + z); k; (0 + z)]))))))).
Definition k_deaqr_x3b_17 (z a b c k : nat) : ex := (EAdd (k_deaqr_x3b_16 (0 + z) a b c k) (ESum (0 + z) 2 (ESum (1 + z) 1 (ESum (2 + z) 3 (EMul (ET 9 [c; (0 + z); (1 + z); (2 + z)]) (ET 70 [a; b; (1 + z); (2 + z); k; (0 + z)])))))).
Definition k_deaqr_x3b_18 (z a b c k : nat) : ex := (EAdd (k_deaqr_x3b_17 (0 + z) a b c k) (EScale (1) 2 (ESum (0 + z) 0 (ESum (1 + z) 1 (ESum (2 + z) 3 (EMul (ET 17 [(0 + z); b; (1 + z); (2 + z)]) (ET 69 [a; (2 + z); c; (1 + z); k; (0 + z)]))))))).
Definition k_deaqr_x3b_19 (z a b c k : nat) : ex := (EAdd (k_deaqr_x3b_18 (0 + z) a b c k) (EScale (1) 4 (ESum (0 + z) 2 (ESum (1 + z) 3 (ESum (2 + z) 3 (EMul (ET 16 [b; (0 + z); (1 + z); (2 + z)]) (ET 70 [a; (1 + z); c; (2 + z); k; (0 + z)]))))))).
Definition k_deaqr_x3b_20 (z a b c k : nat) : ex := (ESub (k_deaqr_x3b_19 (0 + z) a b c k) (k_deaqr_x3b_19 (0 + z) c b a k)).
Definition k_deaqr_x3c (z a b c k : nat) : ex := (ESum (0 + z) 1 (EMul (ET 39 [a; c; (0 + z); k]) (ET 66 [(0 + z); b]))).
Definition k_deaqr_x3c_1 (z a b c k : nat) : ex := (EAdd (k_deaqr_x3c (0 + z) a b c k) (EScale (1) 2 (ESum (0 + z) 3 (EMul (ET 33 [c; b; k; (0 + z)]) (ET 66 [a; (0 + z)]))))).
Definition k_deaqr_x3c_2 (z a b c k : nat) : ex := (EAdd (k_deaqr_x3c_1 (0 + z) a b c k) (EScale (1) 2 (ESum (0 + z) 1 (EMul (ET 7 [a; (0 + z)]) (ET 68 [(0 + z); b; c; k]))))).
Definition k_deaqr_x3c_3 (z a b c k : nat) : ex := (EAdd (k_deaqr_x3c_2 (0 + z) a b c k) (ESum (0 + z) 3 (EMul (ET 15 [b; (0 + z)]) (ET 68 [a; (0 + z); c; k])))).
Definition k_deaqr_x3c_4 (z a b c k : nat) : ex := (EAdd (k_deaqr_x3c_3 (0 + z) a b c k) (ESum (0 + z) 1 (ESum (1 + z) 3 (EMul (ET 43 [a; b; (0 + z); (1 + z)]) (ET 68 [(0 + z); (1 + z); c; k]))))).
Definition k_deaqr_x3c_5 (z a b c k : nat) : ex := (EAdd (k_deaqr_x3c_4 (0 + z) a b c k) (EScale (1) 4 (ESum (0 + z) 3 (ESum (1 + z) 3 (EMul (ET 45 [b; c; (0 + z); (1 + z)]) (ET 68 [a; (0 + z); (1 + z); k])))))).
Definition k_deaqr_x3c_6 (z a b c k : nat) : ex := (EAdd (k_deaqr_x3c_5 (0 + z) a b c k) (ESum (0 + z) 0 (ESum (1 + z) 1 (EMul (ET 26 [(0 + z); c; (1 + z); k]) (ET 67 [a; b; (1 + z); (0 + z)]))))).
Definition k_deaqr_x3c_7 (z a b c k : nat) : ex := (EAdd (k_deaqr_x3c_6 (0 + z) a b c k) (ESum (0 + z) 2 (ESum (1 + z) 3 (EMul (ET 25 [c; (0 + z); k; (1 + z)]) (ET 68 [a; b; (1 + z); (0 + z)]))))).
Definition k_deaqr_x3c_8 (z a b c k : nat) : ex := (ESub (k_deaqr_x3c_7 (0 + z) a b c k) (EScale (1) 2 (ESum (0 + z) 2 (ESum (1 + z) 1 (EMul (ET 36 [a; (0 + z); (1 + z); k]) (ET 68 [(1 + z); b; c; (0 + z)])))))).
Definition k_deaqr_x3c_9 (z a b c k : nat) : ex := (ESub (k_deaqr_x3c_8 (0 + z) a b c k) (ESum (0 + z) 0 (EMul (k_deaqr_X_ab_ov (1 + z) (0 + z) b) (ET 11 [a; c; (0 + z); k])))).
Definition k_deaqr_x3c_10 (z a b c k : nat) : ex := (ESub (k_deaqr_x3c_9 (0 + z) a b c k) (EScale (1) 2 (ESum (0 + z) 2 (EMul (k_deaqr_X_ab_vo (1 + z) a (0 + z)) (ET 18 [b; c; (0 + z); k]))))).
Definition k_deaqr_x3c_11 (z a b c k : nat) : ex := (ESub (k_deaqr_x3c_10 (0 + z) a b c k) (EScale (1) 2 (ESum (0 + z) 2 (EMul (ET 19 [(0 + z); k]) (ET 68 [a; b; c; (0 + z)]))))).
Definition k_deaqr_x3c_12 (z a b c k : nat) : ex := (EAdd (k_deaqr_x3c_11 (0 + z) a b c k) (EScale (1) 2 (ESum (0 + z) 0 (ESum (1 + z) 1 (EMul (ET 0 [(0 + z); (1 + z)]) (ET 70 [a; b; (1 + z); c; (0 + z); k])))))).
Definition k_deaqr_x3c_13 (z a b c k : nat) : ex := (EAdd (k_deaqr_x3c_12 (0 + z) a b c k) (EScale (1) 2 (ESum (0 + z) 2 (ESum (1 + z) 3 (EMul (ET 5 [(0 + z); (1 + z)]) (ET 71 [a; b; (1 + z); c; (0 + z); k])))))).
Definition k_deaqr_x3c_14 (z a b c k : nat) : ex := (ESub (k_deaqr_x3c_13 (0 + z) a b c k) (EScale (1) 2 (ESum (0 + z) 0 (ESum (1 + z) 2 (ESum (2 + z) 1 (EMul (ET 21 [(0 + z); (1 + z); (2 + z); k]) (ET 70 [a; b; (2 + z); c; (0 + z); (1 + z)]))))))).
Definition k_deaqr_x3c_15 (z a b c k : nat) : ex := (ESub (k_deaqr_x3c_14 (0 + z) a b c k) (EScale (1) 4 (ESum (0 + z) 2 (ESum (1 + z) 2 (ESum (2 + z) 3 (EMul (ET 20 [(0 + z); (1 + z); k; (2 + z)]) (ET 71 [a; b; c; (2 + z); (0 + z); (1 + z)]))))))).
Definition k_deaqr_x3c_16 (z a b c k : nat) : ex := (EAdd (k_deaqr_x3c_15 (0 + z) a b c k) (ESum (0 + z) 0 (ESum (1 + z) 1 (ESum (2 + z) 3 (EMul (ET 17 [(0 + z); c; (1 + z); (2 + z)]) (ET 70 [a; b; (1 + z); (2 + z); (0 + z); k])))))).
Definition k_deaqr_x3c_17 (z a b c k : nat) : ex := (EAdd (k_deaqr_x3c_16 (0 + z) a b c k) (EScale (1) 2 (ESum (0 + z) 2 (ESum (1 + z) 3 (ESum (2 + z) 3 (EMul (ET 16 [c; (0 + z); (1 + z); (2 + z)]) (ET 71 [a; b; (1 + z); (2 + z); k; (0 + z)]))))))).
Definition k_deaqr_x3c_18 (z a b c k : nat) : ex := (EAdd (k_deaqr_x3c_17 (0 + z) a b c k) (EScale (1) 4 (ESum (0 + z) 0 (ESum (1 + z) 1 (ESum (2 + z) 1 (EMul (ET 8 [a; (0 + z); (1 + z); (2 + z)]) (ET 70 [(1 + z); b; (2 + z); c; (0 + z); k]))))))).
Definition k_deaqr_x3c_19 (z a b c k : nat) : ex := (EAdd (k_deaqr_x3c_18 (0 + z) a b c k) (EScale (1) 2 (ESum (0 + z) 2 (ESum (1 + z) 1 (ESum (2 + z) 3 (EMul (ET 9 [a; (0 + z); (1 + z); (2 + z)]) (ET 71 [(1 + z); b; (2 + z); c; (0 + z); k]))))))).
Definition k_deaqr_x3c_20 (z a b c k : nat) : ex := (ESub (k_deaqr_x3c_19 (0 + z) a b c k) (k_deaqr_x3c_19 (0 + z) a c b k)).
Definition k_deaqr_x4b (z a b c d k l : nat) : ex := (EScale (1) 2 (ESum (0 + z) 1 (EMul (ET 30 [c; d; k; (0 + z)]) (ET 67 [a; b; (0 + z); l])))).
Definition k_deaqr_x4b_1 (z a b c d k l : nat) : ex := (EAdd (k_deaqr_x4b (0 + z) a b c d k l) (EScale (1) 2 (ESum (0 + z) 3 (EMul (ET 40 [c; b; k; (0 + z)]) (ET 67 [a; (0 + z); d; l]))))).
Definition k_deaqr_x4b_2 (z a b c d k l : nat) : ex := (ESub (k_deaqr_x4b_1 (0 + z) a b c d k l) (EScale (1) 4 (ESum (0 + z) 0 (EMul (ET 29 [c; (0 + z); k; l]) (ET 67 [a; b; d; (0 + z)]))))).
Definition k_deaqr_x4b_3 (z a b c d k l : nat) : ex := (ESub (k_deaqr_x4b_2 (0 + z) a b c d k l) (EScale (1) 2 (ESum (0 + z) 0 (EMul (k_deaqr_X_aba_vvoo (1 + z) a b (0 + z) l) (ET 10 [c; d; k; (0 + z)]))))).
Definition k_deaqr_x4b_4 (z a b c d k l : nat) : ex := (EAdd (k_deaqr_x4b_3 (0 + z) a b c d k l) (EScale (1) 4 (ESum (0 + z) 1 (EMul (k_deaqr_X_aba_vvvv_1 (1 + z) a b d (0 + z)) (ET 10 [c; (0 + z); k; l]))))).
Definition k_deaqr_x4b_5 (z a b c d k l : nat) : ex := (ESub (k_deaqr_x4b_4 (0 + z) a b c d k l) (EScale (1) 2 (ESum (0 + z) 2 (EMul (k_deaqr_X_aba_vovo_1 (1 + z) a (0 + z) c k) (ET 11 [d; b; l; (0 + z)]))))).
Definition k_deaqr_x4b_6 (z a b c d k l : nat) : ex := (EAdd (k_deaqr_x4b_5 (0 + z) a b c d k l) (EScale (1) 4 (ESum (0 + z) 1 (EMul (ET 7 [d; (0 + z)]) (ET 69 [a; b; c; (0 + z); k; l]))))).
Definition k_deaqr_x4b_7 (z a b c d k l : nat) : ex := (EAdd (k_deaqr_x4b_6 (0 + z) a b c d k l) (EScale (1) 12 (ESum (0 + z) 3 (EMul (ET 15 [b; (0 + z)]) (ET 69 [a; (0 + z); c; d; k; l]))))).
Definition k_deaqr_x4b_8 (z a b c d k l : nat) : ex := (ESub (k_deaqr_x4b_7 (0 + z) a b c d k l) (EScale (1) 6 (ESum (0 + z) 0 (EMul (ET 12 [(0 + z); l]) (ET 69 [a; b; c; d; k; (0 + z)]))))).
Definition k_deaqr_x4b_9 (z a b c d k l : nat) : ex := (EAdd (k_deaqr_x4b_8 (0 + z) a b c d k l) (EScale (1) 24 (ESum (0 + z) 0 (ESum (1 + z) 0 (EMul (ET 28 [(0 + z); (1 + z); k; l]) (ET 69 [a; b; c; d; (0 + z); (1 + z)])))))).
Definition k_deaqr_x4b_10 (z a b c d k l : nat) : ex := (EAdd (k_deaqr_x4b_9 (0 + z) a b c d k l) (EScale (1) 8 (ESum (0 + z) 1 (ESum (1 + z) 1 (EMul (ET 41 [c; d; (0 + z); (1 + z)]) (ET 69 [a; b; (0 + z); (1 + z); k; l])))))).
Definition k_deaqr_x4b_11 (z a b c d k l : nat) : ex := (EAdd (k_deaqr_x4b_10 (0 + z) a b c d k l) (EScale (1) 4 (ESum (0 + z) 1 (ESum (1 + z) 3 (EMul (ET 43 [a; b; (0 + z); (1 + z)]) (ET 69 [(0 + z); (1 + z); c; d; k; l])))))).
Definition k_deaqr_x4b_12 (z a b c d k l : nat) : ex := (EAdd (k_deaqr_x4b_11 (0 + z) a b c d k l) (EScale (1) 2 (ESum (0 + z) 0 (ESum (1 + z) 1 (EMul (ET 22 [d; (0 + z); l; (1 + z)]) (ET 69 [a; b; c; (1 + z); k; (0 + z)])))))).
Definition k_deaqr_x4b_13 (z a b c d k l : nat) : ex := (EAdd (k_deaqr_x4b_12 (0 + z) a b c d k l) (EScale (1) 2 (ESum (0 + z) 2 (ESum (1 + z) 3 (EMul (ET 23 [d; (0 + z); l; (1 + z)]) (ET 70 [a; b; c; (1 + z); k; (0 + z)])))))).
Definition k_deaqr_x4b_14 (z a b c d k l : nat) : ex := (ESub (k_deaqr_x4b_13 (0 + z) a b c d k l) (EScale (1) 6 (ESum (0 + z) 0 (ESum (1 + z) 3 (EMul (ET 35 [(0 + z); b; l; (1 + z)]) (ET 69 [a; (1 + z); c; d; k; (0 + z)])))))).
Definition k_deaqr_x4b_15 (z a b c d k l : nat) : ex := (EAdd (k_deaqr_x4b_14 (0 + z) a b c d k l) (EScale (1) 2 (ESum (0 + z) 0 (ESum (1 + z) 2 (EMul (EMul (k_deaqr_X_ab_oo (2 + z) (0 + z) (1 + z)) (ET 10 [a; d; (0 + z); l])) (ET 11 [c; b; k; (1 + z)])))))).
Definition k_deaqr_x4b_16 (z a b c d k l : nat) : ex := (ESub (k_deaqr_x4b_15 (0 + z) a b c d k l) (k_deaqr_x4b_15 (0 + z) a b c d l k)).
Definition k_deaqr_x4b_17 (z a b c d k l : nat) : ex := (ESub (k_deaqr_x4b_16 (0 + z) a b c d k l) (k_deaqr_x4b_16 (0 + z) a b d c k l)).
Definition k_deaqr_x4b_18 (z a b c d k l : nat) : ex := (ESub (k_deaqr_x4b_17 (0 + z) a b c d k l) (EAdd (k_deaqr_x4b_17 (0 + z) c b a d k l) (k_deaqr_x4b_17 (0 + z) d b c a k l))).
Definition k_deaqr_x4c (z a b c d k l : nat) : ex := (ESum (0 + z) 1 (EMul (ET 39 [c; d; (0 + z); l]) (ET 67 [a; b; (0 + z); k]))).
Definition k_deaqr_x4c_1 (z a b c d k l : nat) : ex := (EAdd (k_deaqr_x4c (0 + z) a b c d k l) (ESum (0 + z) 3 (EMul (ET 40 [c; d; k; (0 + z)]) (ET 68 [a; b; (0 + z); l])))).
Definition k_deaqr_x4c_2 (z a b c d k l : nat) : ex := (ESub (k_deaqr_x4c_1 (0 + z) a b c d k l) (EScale (1) 2 (ESum (0 + z) 0 (EMul (ET 37 [(0 + z); d; k; l]) (ET 67 [a; b; c; (0 + z)]))))).
Definition k_deaqr_x4c_3 (z a b c d k l : nat) : ex := (ESub (k_deaqr_x4c_2 (0 + z) a b c d k l) (EScale (1) 2 (ESum (0 + z) 2 (EMul (ET 38 [c; (0 + z); k; l]) (ET 68 [a; b; d; (0 + z)]))))).
Definition k_deaqr_x4c_4 (z a b c d k l : nat) : ex := (EAdd (k_deaqr_x4c_3 (0 + z) a b c d k l) (EScale (1) 4 (ESum (0 + z) 1 (EMul (ET 30 [c; a; k; (0 + z)]) (ET 68 [(0 + z); b; d; l]))))).
Definition k_deaqr_x4c_5 (z a b c d k l : nat) : ex := (EAdd (k_deaqr_x4c_4 (0 + z) a b c d k l) (EScale (1) 4 (ESum (0 + z) 3 (EMul (ET 33 [d; b; l; (0 + z)]) (ET 67 [a; (0 + z); c; k]))))).
Definition k_deaqr_x4c_6 (z a b c d k l : nat) : ex := (EAdd (k_deaqr_x4c_5 (0 + z) a b c d k l) (EScale (1) 2 (ESum (0 + z) 3 (EMul (k_deaqr_X_abb_vvvv_1 (1 + z) a b d (0 + z)) (ET 11 [c; (0 + z); k; l]))))).
Definition k_deaqr_x4c_7 (z a b c d k l : nat) : ex := (EAdd (k_deaqr_x4c_6 (0 + z) a b c d k l) (EScale (1) 2 (ESum (0 + z) 1 (EMul (k_deaqr_X_aba_vvvv_1 (1 + z) a b c (0 + z)) (ET 11 [(0 + z); d; k; l]))))).
Definition k_deaqr_x4c_8 (z a b c d k l : nat) : ex := (ESub (k_deaqr_x4c_7 (0 + z) a b c d k l) (ESum (0 + z) 0 (EMul (k_deaqr_X_aba_vvoo (1 + z) a b (0 + z) k) (ET 11 [c; d; (0 + z); l])))).
Definition k_deaqr_x4c_9 (z a b c d k l : nat) : ex := (ESub (k_deaqr_x4c_8 (0 + z) a b c d k l) (ESum (0 + z) 2 (EMul (k_deaqr_X_abb_vvoo (1 + z) a b (0 + z) l) (ET 11 [c; d; k; (0 + z)])))).
Definition k_deaqr_x4c_10 (z a b c d k l : nat) : ex := (ESub (k_deaqr_x4c_9 (0 + z) a b c d k l) (EScale (1) 4 (ESum (0 + z) 2 (EMul (k_deaqr_X_aba_vovo_1 (1 + z) a (0 + z) c k) (ET 18 [b; d; (0 + z); l]))))).
Definition k_deaqr_x4c_11 (z a b c d k l : nat) : ex := (ESub (k_deaqr_x4c_10 (0 + z) a b c d k l) (EScale (1) 4 (ESum (0 + z) 0 (EMul (k_deaqr_X_abb_ovvo_1 (1 + z) (0 + z) b d l) (ET 10 [a; c; (0 + z); k]))))).
Definition k_deaqr_x4c_12 (z a b c d k l : nat) : ex := (EAdd (k_deaqr_x4c_11 (0 + z) a b c d k l) (EScale (1) 2 (ESum (0 + z) 1 (EMul (ET 7 [a; (0 + z)]) (ET 70 [(0 + z); b; c; d; k; l]))))).
Definition k_deaqr_x4c_13 (z a b c d k l : nat) : ex := (EAdd (k_deaqr_x4c_12 (0 + z) a b c d k l) (EScale (1) 2 (ESum (0 + z) 3 (EMul (ET 15 [b; (0 + z)]) (ET 70 [a; (0 + z); c; d; k; l]))))).
Definition k_deaqr_x4c_14 (z a b c d k l : nat) : ex := (ESub (k_deaqr_x4c_13 (0 + z) a b c d k l) (EScale (1) 4 (ESum (0 + z) 0 (EMul (ET 12 [(0 + z); k]) (ET 70 [a; b; c; d; (0 + z); l]))))).
Definition k_deaqr_x4c_15 (z a b c d k l : nat) : ex := (ESub (k_deaqr_x4c_14 (0 + z) a b c d k l) (EScale (1) 4 (ESum (0 + z) 2 (EMul (ET 19 [(0 + z); l]) (ET 70 [a; b; c; d; k; (0 + z)]))))).
Definition k_deaqr_x4c_16 (z a b c d k l : nat) : ex := (EAdd (k_deaqr_x4c_15 (0 + z) a b c d k l) (EScale (1) 4 (ESum (0 + z) 0 (ESum (1 + z) 2 (EMul (ET 34 [(0 + z); (1 + z); k; l]) (ET 70 [a; b; c; d; (0 + z); (1 + z)])))))).
Definition k_deaqr_x4c_17 (z a b c d k l : nat) : ex := (EAdd (k_deaqr_x4c_16 (0 + z) a b c d k l) (ESum (0 + z) 1 (ESum (1 + z) 3 (EMul (ET 43 [c; d; (0 + z); (1 + z)]) (ET 70 [a; b; (0 + z); (1 + z); k; l]))))).
Definition k_deaqr_x4c_18 (z a b c d k l : nat) : ex := (EAdd (k_deaqr_x4c_17 (0 + z) a b c d k l) (EScale (1) 8 (ESum (0 + z) 1 (ESum (1 + z) 1 (EMul (ET 41 [a; c; (0 + z); (1 + z)]) (ET 70 [(0 + z); b; (1 + z); d; k; l])))))).
Definition k_deaqr_x4c_19 (z a b c d k l : nat) : ex := (EAdd (k_deaqr_x4c_18 (0 + z) a b c d k l) (EScale (1) 8 (ESum (0 + z) 3 (ESum (1 + z) 3 (EMul (ET 45 [b; d; (0 + z); (1 + z)]) (ET 70 [a; (0 + z); c; (1 + z); k; l])))))).
Definition k_deaqr_x4c_20 (z a b c d k l : nat) : ex := (EAdd (k_deaqr_x4c_19 (0 + z) a b c d k l) (EScale (1) 2 (ESum (0 + z) 0 (ESum (1 + z) 1 (EMul (ET 22 [c; (0 + z); k; (1 + z)]) (ET 70 [a; b; (1 + z); d; (0 + z); l])))))).
Definition k_deaqr_x4c_21 (z a b c d k l : nat) : ex := (EAdd (k_deaqr_x4c_20 (0 + z) a b c d k l) (EScale (1) 2 (ESum (0 + z) 2 (ESum (1 + z) 3 (EMul (ET 23 [c; (0 + z); k; (1 + z)]) (ET 71 [a; b; (1 + z); d; (0 + z); l])))))).
Definition k_deaqr_x4c_22 (z a b c d k l : nat) : ex := (EAdd (k_deaqr_x4c_21 (0 + z) a b c d k l) (EScale (1) 2 (ESum (0 + z) 0 (ESum (1 + z) 1 (EMul (ET 26 [(0 + z); d; (1 + z); l]) (ET 69 [a; b; c; (1 + z); k; (0 + z)])))))).
Definition k_deaqr_x4c_23 (z a b c d k l : nat) : ex := (EAdd (k_deaqr_x4c_22 (0 + z) a b c d k l) (EScale (1) 2 (ESum (0 + z) 2 (ESum (1 + z) 3 (EMul (ET 25 [d; (0 + z); l; (1 + z)]) (ET 70 [a; b; c; (1 + z); k; (0 + z)])))))).
Definition k_deaqr_x4c_24 (z a b c d k l : nat) : ex := (ESub (k_deaqr_x4c_23 (0 + z) a b c d k l) (EScale (1) 2 (ESum (0 + z) 0 (ESum (1 + z) 3 (EMul (ET 35 [(0 + z); d; k; (1 + z)]) (ET 70 [a; b; c; (1 + z); (0 + z); l])))))).
Definition k_deaqr_x4c_25 (z a b c d k l : nat) : ex := (ESub (k_deaqr_x4c_24 (0 + z) a b c d k l) (EScale (1) 2 (ESum (0 + z) 2 (ESum (1 + z) 1 (EMul (ET 36 [c; (0 + z); (1 + z); l]) (ET 70 [a; b; (1 + z); d; k; (0 + z)])))))).
Definition k_deaqr_x4c_26 (z a b c d k l : nat) : ex := (EAdd (k_deaqr_x4c_25 (0 + z) a b c d k l) (EScale (1) 4 (ESum (0 + z) 0 (ESum (1 + z) 2 (EMul (EMul (k_deaqr_X_ab_oo (2 + z) (0 + z) (1 + z)) (ET 10 [a; c; (0 + z); k])) (ET 18 [b; d; (1 + z); l])))))).
Definition k_deaqr_x4c_27 (z a b c d k l : nat) : ex := (EAdd (k_deaqr_x4c_26 (0 + z) a b c d k l) (ESum (0 + z) 0 (ESum (1 + z) 2 (EMul (EMul (k_deaqr_X_ab_oo (2 + z) (0 + z) (1 + z)) (ET 11 [a; d; (0 + z); l])) (ET 11 [c; b; k; (1 + z)]))))).
Definition k_deaqr_x4c_28 (z a b c d k l : nat) : ex := (ESub (k_deaqr_x4c_27 (0 + z) a b c d k l) (k_deaqr_x4c_27 (0 + z) c b a d k l)).
Definition k_deaqr_x4c_29 (z a b c d k l : nat) : ex := (ESub (k_deaqr_x4c_28 (0 + z) a b c d k l) (k_deaqr_x4c_28 (0 + z) a d c b k l)).
Definition k_deaqr_x4d (z a b c d k l : nat) : ex := (EScale (1) 2 (ESum (0 + z) 3 (EMul (ET 33 [c; d; k; (0 + z)]) (ET 68 [a; b; (0 + z); l])))).
Definition k_deaqr_x4d_1 (z a b c d k l : nat) : ex := (EAdd (k_deaqr_x4d (0 + z) a b c d k l) (EScale (1) 2 (ESum (0 + z) 1 (EMul (ET 39 [a; c; (0 + z); k]) (ET 68 [(0 + z); b; d; l]))))).
Definition k_deaqr_x4d_2 (z a b c d k l : nat) : ex := (ESub (k_deaqr_x4d_1 (0 + z) a b c d k l) (EScale (1) 4 (ESum (0 + z) 2 (EMul (ET 32 [c; (0 + z); k; l]) (ET 68 [a; b; d; (0 + z)]))))).
Definition k_deaqr_x4d_3 (z a b c d k l : nat) : ex := (EAdd (k_deaqr_x4d_2 (0 + z) a b c d k l) (EScale (1) 4 (ESum (0 + z) 3 (EMul (k_deaqr_X_abb_vvvv_1 (1 + z) a b d (0 + z)) (ET 18 [c; (0 + z); k; l]))))).
Definition k_deaqr_x4d_4 (z a b c d k l : nat) : ex := (ESub (k_deaqr_x4d_3 (0 + z) a b c d k l) (EScale (1) 2 (ESum (0 + z) 2 (EMul (k_deaqr_X_abb_vvoo (1 + z) a b (0 + z) l) (ET 18 [c; d; k; (0 + z)]))))).
Definition k_deaqr_x4d_5 (z a b c d k l : nat) : ex := (ESub (k_deaqr_x4d_4 (0 + z) a b c d k l) (EScale (1) 2 (ESum (0 + z) 0 (EMul (k_deaqr_X_abb_ovvo_1 (1 + z) (0 + z) b c k) (ET 11 [a; d; (0 + z); l]))))).
Definition k_deaqr_x4d_6 (z a b c d k l : nat) : ex := (EAdd (k_deaqr_x4d_5 (0 + z) a b c d k l) (EScale (1) 4 (ESum (0 + z) 3 (EMul (ET 15 [d; (0 + z)]) (ET 71 [a; b; c; (0 + z); k; l]))))).
Definition k_deaqr_x4d_7 (z a b c d k l : nat) : ex := (EAdd (k_deaqr_x4d_6 (0 + z) a b c d k l) (EScale (1) 12 (ESum (0 + z) 1 (EMul (ET 7 [a; (0 + z)]) (ET 71 [(0 + z); b; c; d; k; l]))))).
Definition k_deaqr_x4d_8 (z a b c d k l : nat) : ex := (ESub (k_deaqr_x4d_7 (0 + z) a b c d k l) (EScale (1) 6 (ESum (0 + z) 2 (EMul (ET 19 [(0 + z); l]) (ET 71 [a; b; c; d; k; (0 + z)]))))).
Definition k_deaqr_x4d_9 (z a b c d k l : nat) : ex := (EAdd (k_deaqr_x4d_8 (0 + z) a b c d k l) (EScale (1) 24 (ESum (0 + z) 2 (ESum (1 + z) 2 (EMul (ET 31 [(0 + z); (1 + z); k; l]) (ET 71 [a; b; c; d; (0 + z); (1 + z)])))))).
Definition k_deaqr_x4d_10 (z a b c d k l : nat) : ex := (EAdd (k_deaqr_x4d_9 (0 + z) a b c d k l) (EScale (1) 8 (ESum (0 + z) 3 (ESum (1 + z) 3 (EMul (ET 45 [c; d; (0 + z); (1 + z)]) (ET 71 [a; b; (0 + z); (1 + z); k; l])))))).
Definition k_deaqr_x4d_11 (z a b c d k l : nat) : ex := (EAdd (k_deaqr_x4d_10 (0 + z) a b c d k l) (EScale (1) 4 (ESum (0 + z) 1 (ESum (1 + z) 3 (EMul (ET 43 [a; b; (0 + z); (1 + z)]) (ET 71 [(0 + z); (1 + z); c; d; k; l])))))).
Definition k_deaqr_x4d_12 (z a b c d k l : nat) : ex := (EAdd (k_deaqr_x4d_11 (0 + z) a b c d k l) (EScale (1) 2 (ESum (0 + z) 0 (ESum (1 + z) 1 (EMul (ET 26 [(0 + z); d; (1 + z); l]) (ET 70 [a; b; (1 + z); c; (0 + z); k])))))).
Definition k_deaqr_x4d_13 (z a b c d k l : nat) : ex := (EAdd (k_deaqr_x4d_12 (0 + z) a b c d k l) (EScale (1) 2 (ESum (0 + z) 2 (ESum (1 + z) 3 (EMul (ET 25 [d; (0 + z); l; (1 + z)]) (ET 71 [a; b; c; (1 + z); k; (0 + z)])))))).
Definition k_deaqr_x4d_14 (z a b c d k l : nat) : ex := (ESub (k_deaqr_x4d_13 (0 + z) a b c d k l) (EScale (1) 6 (ESum (0 + z) 2 (ESum (1 + z) 1 (EMul (ET 36 [a; (0 + z); (1 + z); l]) (ET 71 [(1 + z); b; c; d; k; (0 + z)])))))).
Definition k_deaqr_x4d_15 (z a b c d k l : nat) : ex := (EAdd (k_deaqr_x4d_14 (0 + z) a b c d k l) (EScale (1) 2 (ESum (0 + z) 0 (ESum (1 + z) 2 (EMul (EMul (k_deaqr_X_ab_oo (2 + z) (0 + z) (1 + z)) (ET 11 [a; d; (0 + z); l])) (ET 18 [b; c; (1 + z); k])))))).
Definition k_deaqr_x4d_16 (z a b c d k l : nat) : ex := (ESub (k_deaqr_x4d_15 (0 + z) a b c d k l) (k_deaqr_x4d_15 (0 + z) a b c d l k)).
Definition k_deaqr_x4d_17 (z a b c d k l : nat) : ex := (ESub (k_deaqr_x4d_16 (0 + z) a b c d k l) (k_deaqr_x4d_16 (0 + z) a b d c k l)).
Definition k_deaqr_x4d_18 (z a b c d k l : nat) : ex := (ESub (k_deaqr_x4d_17 (0 + z) a b c d k l) (EAdd (k_deaqr_x4d_17 (0 + z) a c b d k l) (k_deaqr_x4d_17 (0 + z) a d c b k l))).
Section S_deaq.
Variables (d : dims) (X X' : ints) (T T' : amps) (Y : deaqv).
Hypothesis (HX : ints_agree d X X') (Ta : forall a b i j, x_aa T a b i j = x_aa T' a b i j) (Tb : forall a b i j, x_ab T a b i j = x_ab T' a b i j) (Tc : forall a b i j, x_bb T a b i j = x_bb T' a b i j).
Lemma deaq_same_ab p q : p < nua d -> q < nub d -> deaq_ab (deaq_HR d X T Y) p q = deaq_ab (deaq_HR d X' T' Y) p q.
Proof. intros. apply (skel d X X' T T' [ap2 (deaq_ab Y); ap4 (deaq_aba Y); ap4 (deaq_abb Y); ap6 (deaq_abaa Y); ap6 (deaq_abab Y); ap6 (deaq_abbb Y)] [(0, 1); (1, 3)] (k_deaqr_x2b_11 10 0 1) (venv [p; q]) HX Ta Tb Tc); [cbn [length]; lia|vm_compute; reflexivity|rng6]. Qed.
Lemma deaq_same_aba p q r s : p < nua d -> q < nub d -> r < nua d -> s < noa d -> deaq_aba (deaq_HR d X T Y) p q r s = deaq_aba (deaq_HR d X' T' Y) p q r s.
Proof. intros. apply (skel d X X' T T' [ap2 (deaq_ab Y); ap4 (deaq_aba Y); ap4 (deaq_abb Y); ap6 (deaq_abaa Y); ap6 (deaq_abab Y); ap6 (deaq_abbb Y)] [(0, 1); (1, 3); (2, 1); (3, 0)] (k_deaqr_x3b_20 10 0 1 2 3) (venv [p; q; r; s]) HX Ta Tb Tc); [cbn [length]; lia|vm_compute; reflexivity|rng6]. Qed.
Lemma deaq_same_abb p q r s : p < nua d -> q < nub d -> r < nub d -> s < nob d -> deaq_abb (deaq_HR d X T Y) p q r s = deaq_abb (deaq_HR d X' T' Y) p q r s.
Proof. intros. apply (skel d X X' T T' [ap2 (deaq_ab Y); ap4 (deaq_aba Y); ap4 (deaq_abb Y); ap6 (deaq_abaa Y); ap6 (deaq_abab Y); ap6 (deaq_abbb Y)] [(0, 1); (1, 3); (2, 3); (3, 2)] (k_deaqr_x3c_20 10 0 1 2 3) (venv [p; q; r; s]) HX Ta Tb Tc); [cbn [length]; lia|vm_compute; reflexivity|rng6]. Qed.
Lemma deaq_same_abaa p q r s t u : p < nua d -> q < nub d -> r < nua d -> s < nua d -> t < noa d -> u < noa d -> deaq_abaa (deaq_HR d X T Y) p q r s t u = deaq_abaa (deaq_HR d X' T' Y) p q r s t u.
Proof. intros. apply (skel d X X' T T' [ap2 (deaq_ab Y); ap4 (deaq_aba Y); ap4 (deaq_abb Y); ap6 (deaq_abaa Y); ap6 (deaq_abab Y); ap6 (deaq_abbb Y)] [(0, 1); (1, 3); (2, 1); (3, 1); (4, 0); (5, 0)] (k_deaqr_x4b_18 10 0 1 2 3 4 5) (venv [p; q; r; s; t; u]) HX Ta Tb Tc); [cbn [length]; lia|vm_compute; reflexivity|rng6]. Qed.
Lemma deaq_same_abab p q r s t u : p < nua d -> q < nub d -> r < nua d -> s < nub d -> t < noa d -> u < nob d -> deaq_abab (deaq_HR d X T Y) p q r s t u = deaq_abab (deaq_HR d X' T' Y) p q r s t u.
Proof. intros. apply (skel d X X' T T' [ap2 (deaq_ab Y); ap4 (deaq_aba Y); ap4 (deaq_abb Y); ap6 (deaq_abaa Y); ap6 (deaq_abab Y); ap6 (deaq_abbb Y)] [(0, 1); (1, 3); (2, 1); (3, 3); (4, 0); (5, 2)] (k_deaqr_x4c_29 10 0 1 2 3 4 5) (venv [p; q; r; s; t; u]) HX Ta Tb Tc); [cbn [length]; lia|vm_compute; reflexivity|rng6]. Qed.
Lemma deaq_same_abbb p q r s t u : p < nua d -> q < nub d -> r < nub d -> s < nub d -> t < nob d -> u < nob d -> deaq_abbb (deaq_HR d X T Y) p q r s t u = deaq_abbb (deaq_HR d X' T' Y) p q r s t u.
Proof. intros. apply (skel d X X' T T' [ap2 (deaq_ab Y); ap4 (deaq_aba Y); ap4 (deaq_abb Y); ap6 (deaq_abaa Y); ap6 (deaq_abab Y); ap6 (deaq_abbb Y)] [(0, 1); (1, 3); (2, 3); (3, 3); (4, 2); (5, 2)] (k_deaqr_x4d_18 10 0 1 2 3 4 5) (venv [p; q; r; s; t; u]) HX Ta Tb Tc); [cbn [length]; lia|vm_compute; reflexivity|rng6]. Qed.
Lemma deaq_root_same w : deaq_root d (deaq_HR d X T Y) Y w <-> deaq_root d (deaq_HR d X' T' Y) Y w.
Proof.
  unfold deaq_root. split; intros G; decompose [and] G; repeat match goal with |- _ /\ _ => split end; intros; first [rewrite deaq_same_ab by assumption | rewrite deaq_same_aba by assumption | rewrite deaq_same_abb by assumption | rewrite deaq_same_abaa by assumption | rewrite deaq_same_abab by assumption | rewrite deaq_same_abbb by assumption | rewrite <- deaq_same_ab by assumption | rewrite <- deaq_same_aba by assumption | rewrite <- deaq_same_abb by assumption | rewrite <- deaq_same_abaa by assumption | rewrite <- deaq_same_abab by assumption | rewrite <- deaq_same_abbb by assumption]; auto.
Qed.
End S_deaq.
Definition k_sftr_x_oo (z m j : nat) : ex := (ESub (EAdd (ESum (0 + z) 0 (ESum (1 + z) 1 (ESum (2 + z) 3 (EMul (ET 3 [(0 + z); m; (1 + z); (2 + z)]) (ET 67 [(1 + z); (2 + z); (0 + z); j]))))) (EScale (1) 2 (ESum (0 + z) 2 (ESum (1 + z) 3 (ESum (2 + z) 3 (EMul (ET 6 [m; (0 + z); (1 + z); (2 + z)]) (ET 68 [(2 + z); (1 + z); (0 + z); j]))))))) (ESum (0 + z) 0 (ESum (1 + z) 3 (EMul (ET 14 [(0 + z); m; j; (1 + z)]) (ET 66 [(1 + z); (0 + z)]))))).
Definition k_sftr_x_vv (z b e : nat) : ex := (ESub (ESub (EScale (-1) 2 (ESum (0 + z) 0 (ESum (1 + z) 0 (ESum (2 + z) 1 (EMul (ET 1 [(0 + z); (1 + z); e; (2 + z)]) (ET 67 [(2 + z); b; (1 + z); (0 + z)])))))) (ESum (0 + z) 0 (ESum (1 + z) 2 (ESum (2 + z) 3 (EMul (ET 3 [(0 + z); (1 + z); e; (2 + z)]) (ET 68 [(2 + z); b; (1 + z); (0 + z)])))))) (ESum (0 + z) 0 (ESum (1 + z) 3 (EMul (ET 17 [(0 + z); b; e; (1 + z)]) (ET 66 [(1 + z); (0 + z)]))))).
Definition k_sftr_x_ov (z n e : nat) : ex := (EOpp (ESum (0 + z) 0 (ESum (1 + z) 3 (EMul (ET 3 [(0 + z); n; e; (1 + z)]) (ET 66 [(1 + z); (0 + z)]))))).
Definition k_sftr_X_ab_ovoo (z m c j k : nat) : ex := (EAdd (EAdd (EAdd (EAdd (EAdd (ESub (EScale (1) 2 (ESum (0 + z) 1 (EMul (ET 0 [m; (0 + z)]) (ET 67 [(0 + z); c; j; k])))) (EScale (1) 2 (ESum (0 + z) 0 (EMul (ET 28 [m; (0 + z); j; k]) (ET 66 [c; (0 + z)]))))) (ESum (0 + z) 3 (EMul (ET 35 [m; c; j; (0 + z)]) (ET 66 [(0 + z); k])))) (ESum (0 + z) 0 (ESum (1 + z) 1 (EMul (ET 13 [m; (0 + z); j; (1 + z)]) (ET 67 [(1 + z); c; (0 + z); k]))))) (ESum (0 + z) 2 (ESum (1 + z) 3 (EMul (ET 14 [m; (0 + z); j; (1 + z)]) (ET 68 [(1 + z); c; (0 + z); k]))))) (EScale (1) 4 (ESum (0 + z) 0 (ESum (1 + z) 1 (ESum (2 + z) 1 (EMul (ET 1 [m; (0 + z); (1 + z); (2 + z)]) (ET 69 [(1 + z); (2 + z); c; j; (0 + z); k]))))))) (EScale (1) 2 (ESum (0 + z) 2 (ESum (1 + z) 1 (ESum (2 + z) 3 (EMul (ET 3 [m; (0 + z); (1 + z); (2 + z)]) (ET 70 [(1 + z); (2 + z); c; j; (0 + z); k]))))))).
Definition k_sftr_X_ab_ovoo_1 (z m c j k : nat) : ex := (ESub (k_sftr_X_ab_ovoo (0 + z) m c j k) (k_sftr_X_ab_ovoo (0 + z) m c k j)).
Definition k_sftr_X_ab_vooo (z a m i k : nat) : ex := (EAdd (EAdd (EAdd (ESub (EAdd (EAdd (EScale (1) 2 (ESum (0 + z) 3 (EMul (ET 5 [m; (0 + z)]) (ET 67 [a; (0 + z); i; k])))) (EScale (1) 2 (ESum (0 + z) 1 (EMul (k_sftr_x_ov (1 + z) m (0 + z)) (ET 10 [a; (0 + z); i; k]))))) (ESum (0 + z) 3 (EMul (ET 23 [a; m; i; (0 + z)]) (ET 66 [(0 + z); k])))) (ESum (0 + z) 0 (ESum (1 + z) 3 (EMul (ET 14 [(0 + z); m; i; (1 + z)]) (ET 67 [a; (1 + z); (0 + z); k]))))) (EScale (1) 2 (ESum (0 + z) 1 (ESum (1 + z) 3 (EMul (ET 9 [a; m; (0 + z); (1 + z)]) (ET 67 [(0 + z); (1 + z); i; k])))))) (EScale (1) 2 (ESum (0 + z) 0 (ESum (1 + z) 1 (ESum (2 + z) 3 (EMul (ET 3 [(0 + z); m; (1 + z); (2 + z)]) (ET 69 [a; (1 + z); (2 + z); i; (0 + z); k]))))))) (EScale (1) 4 (ESum (0 + z) 2 (ESum (1 + z) 3 (ESum (2 + z) 3 (EMul (ET 6 [(0 + z); m; (1 + z); (2 + z)]) (ET 70 [a; (1 + z); (2 + z); i; (0 + z); k]))))))).
Definition k_sftr_X_ab_vooo_1 (z a m i k : nat) : ex := (ESub (k_sftr_X_ab_vooo (0 + z) a m i k) (k_sftr_X_ab_vooo (0 + z) a m k i)).
Definition k_sftr_X_ab_vvvo (z a c e k : nat) : ex := (EAdd (ESub (ESub (EAdd (EAdd (EAdd (EAdd (EOpp (ESum (0 + z) 0 (EMul (ET 0 [(0 + z); e]) (ET 67 [a; c; (0 + z); k])))) (ESum (0 + z) 3 (EMul (ET 43 [a; c; e; (0 + z)]) (ET 66 [(0 + z); k])))) (ESum (0 + z) 0 (EMul (ET 22 [a; (0 + z); k; e]) (ET 66 [c; (0 + z)])))) (ESum (0 + z) 0 (ESum (1 + z) 1 (EMul (ET 8 [a; (0 + z); e; (1 + z)]) (ET 67 [(1 + z); c; (0 + z); k]))))) (ESum (0 + z) 2 (ESum (1 + z) 3 (EMul (ET 9 [a; (0 + z); e; (1 + z)]) (ET 68 [(1 + z); c; (0 + z); k]))))) (EScale (1) 2 (ESum (0 + z) 0 (ESum (1 + z) 0 (ESum (2 + z) 1 (EMul (ET 1 [(0 + z); (1 + z); e; (2 + z)]) (ET 69 [a; (2 + z); c; (0 + z); (1 + z); k]))))))) (ESum (0 + z) 0 (ESum (1 + z) 2 (ESum (2 + z) 3 (EMul (ET 3 [(0 + z); (1 + z); e; (2 + z)]) (ET 70 [a; (2 + z); c; (0 + z); (1 + z); k])))))) (EScale (1) 2 (ESum (0 + z) 0 (ESum (1 + z) 0 (EMul (ET 13 [(0 + z); (1 + z); k; e]) (ET 67 [a; c; (1 + z); (0 + z)])))))).
Definition k_sftr_X_bb_ovoo (z m c j k : nat) : ex := (EAdd (ESub (EAdd (EAdd (EAdd (EAdd (ESub (ESub (ESum (0 + z) 3 (EMul (ET 5 [m; (0 + z)]) (ET 68 [(0 + z); c; j; k]))) (ESum (0 + z) 3 (EMul (ET 25 [c; m; j; (0 + z)]) (ET 66 [(0 + z); k])))) (ESum (0 + z) 0 (EMul (ET 34 [(0 + z); m; k; j]) (ET 66 [c; (0 + z)])))) (ESum (0 + z) 0 (ESum (1 + z) 1 (EMul (ET 21 [(0 + z); m; (1 + z); j]) (ET 67 [(1 + z); c; (0 + z); k]))))) (ESum (0 + z) 2 (ESum (1 + z) 3 (EMul (ET 20 [m; (0 + z); j; (1 + z)]) (ET 68 [(1 + z); c; (0 + z); k]))))) (ESum (0 + z) 0 (ESum (1 + z) 1 (ESum (2 + z) 3 (EMul (ET 3 [(0 + z); m; (1 + z); (2 + z)]) (ET 70 [(1 + z); (2 + z); c; (0 + z); j; k])))))) (EScale (1) 2 (ESum (0 + z) 2 (ESum (1 + z) 3 (ESum (2 + z) 3 (EMul (ET 6 [(0 + z); m; (1 + z); (2 + z)]) (ET 71 [(1 + z); (2 + z); c; (0 + z); j; k]))))))) (ESum (0 + z) 1 (EMul (k_sftr_x_ov (1 + z) m (0 + z)) (ET 11 [(0 + z); c; k; j])))) (EScale (1) 2 (ESum (0 + z) 3 (ESum (1 + z) 3 (EMul (ET 16 [c; m; (0 + z); (1 + z)]) (ET 68 [(1 + z); (0 + z); j; k])))))).
Definition k_sftr_X_bb_vvvo (z b c e k : nat) : ex := (ESub (ESub (EAdd (EAdd (EAdd (ESub (EScale (-1) 2 (ESum (0 + z) 2 (EMul (ET 5 [(0 + z); e]) (ET 68 [b; c; (0 + z); k])))) (ESum (0 + z) 0 (EMul (ET 35 [(0 + z); b; k; e]) (ET 66 [c; (0 + z)])))) (EScale (1) 2 (ESum (0 + z) 3 (EMul (ET 45 [b; c; e; (0 + z)]) (ET 66 [(0 + z); k]))))) (ESum (0 + z) 0 (ESum (1 + z) 1 (EMul (ET 17 [(0 + z); b; (1 + z); e]) (ET 67 [(1 + z); c; (0 + z); k]))))) (ESum (0 + z) 2 (ESum (1 + z) 3 (EMul (ET 16 [b; (0 + z); e; (1 + z)]) (ET 68 [(1 + z); c; (0 + z); k]))))) (EScale (1) 2 (ESum (0 + z) 0 (ESum (1 + z) 2 (ESum (2 + z) 1 (EMul (ET 3 [(0 + z); (1 + z); (2 + z); e]) (ET 70 [(2 + z); b; c; (0 + z); (1 + z); k]))))))) (EScale (1) 4 (ESum (0 + z) 2 (ESum (1 + z) 2 (ESum (2 + z) 3 (EMul (ET 6 [(0 + z); (1 + z); (2 + z); e]) (ET 71 [(2 + z); b; c; (0 + z); (1 + z); k]))))))).
Definition k_sftr_X_bb_vvvo_1 (z b c e k : nat) : ex := (ESub (k_sftr_X_bb_vvvo (0 + z) b c e k) (k_sftr_X_bb_vvvo (0 + z) c b e k)).
Definition k_sftr_X_bb_vvov (z b c j e : nat) : ex := (ESub (ESub (EAdd (ESub (ESub (EScale (-1) 2 (ESum (0 + z) 0 (EMul (ET 0 [(0 + z); e]) (ET 68 [b; c; j; (0 + z)])))) (ESum (0 + z) 0 (EMul (ET 26 [(0 + z); b; e; j]) (ET 66 [c; (0 + z)])))) (ESum (0 + z) 0 (ESum (1 + z) 3 (EMul (ET 17 [(0 + z); b; e; (1 + z)]) (ET 68 [(1 + z); c; j; (0 + z)]))))) (EScale (1) 2 (ESum (0 + z) 0 (ESum (1 + z) 2 (EMul (ET 21 [(0 + z); (1 + z); e; j]) (ET 68 [b; c; (1 + z); (0 + z)])))))) (EScale (1) 4 (ESum (0 + z) 0 (ESum (1 + z) 0 (ESum (2 + z) 1 (EMul (ET 1 [(0 + z); (1 + z); e; (2 + z)]) (ET 70 [(2 + z); b; c; (1 + z); j; (0 + z)]))))))) (EScale (1) 2 (ESum (0 + z) 0 (ESum (1 + z) 2 (ESum (2 + z) 3 (EMul (ET 3 [(0 + z); (1 + z); e; (2 + z)]) (ET 71 [(2 + z); b; c; (1 + z); j; (0 + z)]))))))).
Definition k_sftr_X_bb_vvov_1 (z b c j e : nat) : ex := (ESub (k_sftr_X_bb_vvov (0 + z) b c j e) (k_sftr_X_bb_vvov (0 + z) c b j e)).
Definition k_sftr_x1b (z a i : nat) : ex := (ESum (0 + z) 3 (EMul (ET 15 [a; (0 + z)]) (ET 66 [(0 + z); i]))).
Definition k_sftr_x1b_1 (z a i : nat) : ex := (ESub (k_sftr_x1b (0 + z) a i) (ESum (0 + z) 0 (EMul (ET 12 [(0 + z); i]) (ET 66 [a; (0 + z)])))).
Definition k_sftr_x1b_2 (z a i : nat) : ex := (ESub (k_sftr_x1b_1 (0 + z) a i) (ESum (0 + z) 0 (ESum (1 + z) 3 (EMul (ET 35 [(0 + z); a; i; (1 + z)]) (ET 66 [(1 + z); (0 + z)]))))).
Definition k_sftr_x1b_3 (z a i : nat) : ex := (EAdd (k_sftr_x1b_2 (0 + z) a i) (ESum (0 + z) 0 (ESum (1 + z) 1 (EMul (ET 0 [(0 + z); (1 + z)]) (ET 67 [(1 + z); a; (0 + z); i]))))).
Definition k_sftr_x1b_4 (z a i : nat) : ex := (EAdd (k_sftr_x1b_3 (0 + z) a i) (ESum (0 + z) 2 (ESum (1 + z) 3 (EMul (ET 5 [(0 + z); (1 + z)]) (ET 68 [(1 + z); a; (0 + z); i]))))).
Definition k_sftr_x1b_5 (z a i : nat) : ex := (ESub (k_sftr_x1b_4 (0 + z) a i) (EScale (1) 2 (ESum (0 + z) 0 (ESum (1 + z) 0 (ESum (2 + z) 1 (EMul (ET 13 [(0 + z); (1 + z); i; (2 + z)]) (ET 67 [(2 + z); a; (1 + z); (0 + z)]))))))).
Definition k_sftr_x1b_6 (z a i : nat) : ex := (ESub (k_sftr_x1b_5 (0 + z) a i) (ESum (0 + z) 0 (ESum (1 + z) 2 (ESum (2 + z) 3 (EMul (ET 14 [(0 + z); (1 + z); i; (2 + z)]) (ET 68 [(2 + z); a; (1 + z); (0 + z)])))))).
Definition k_sftr_x1b_7 (z a i : nat) : ex := (EAdd (k_sftr_x1b_6 (0 + z) a i) (EScale (1) 2 (ESum (0 + z) 2 (ESum (1 + z) 3 (ESum (2 + z) 3 (EMul (ET 16 [a; (0 + z); (1 + z); (2 + z)]) (ET 68 [(2 + z); (1 + z); (0 + z); i]))))))).
Definition k_sftr_x1b_8 (z a i : nat) : ex := (EAdd (k_sftr_x1b_7 (0 + z) a i) (ESum (0 + z) 0 (ESum (1 + z) 1 (ESum (2 + z) 3 (EMul (ET 17 [(0 + z); a; (1 + z); (2 + z)]) (ET 67 [(1 + z); (2 + z); (0 + z); i])))))).
Definition k_sftr_x1b_9 (z a i : nat) : ex := (EAdd (k_sftr_x1b_8 (0 + z) a i) (EScale (1) 4 (ESum (0 + z) 0 (ESum (1 + z) 0 (ESum (2 + z) 1 (ESum (3 + z) 1 (EMul (ET 1 [(0 + z); (1 + z); (2 + z); (3 + z)]) (ET 69 [(2 + z); (3 + z); a; (0 + z); (1 + z); i])))))))).
Definition k_sftr_x1b_10 (z a i : nat) : ex := (EAdd (k_sftr_x1b_9 (0 + z) a i) (ESum (0 + z) 0 (ESum (1 + z) 2 (ESum (2 + z) 1 (ESum (3 + z) 3 (EMul (ET 3 [(0 + z); (1 + z); (2 + z); (3 + z)]) (ET 70 [(2 + z); (3 + z); a; (0 + z); (1 + z); i]))))))).
Definition k_sftr_x1b_11 (z a i : nat) : ex := (EAdd (k_sftr_x1b_10 (0 + z) a i) (EScale (1) 4 (ESum (0 + z) 2 (ESum (1 + z) 2 (ESum (2 + z) 3 (ESum (3 + z) 3 (EMul (ET 6 [(0 + z); (1 + z); (2 + z); (3 + z)]) (ET 71 [(2 + z); (3 + z); a; (0 + z); (1 + z); i])))))))).
Definition k_sftr_x2b (z a b i j : nat) : ex := (ESum (0 + z) 3 (EMul (ET 40 [a; b; i; (0 + z)]) (ET 66 [(0 + z); j]))).
Definition k_sftr_x2b_1 (z a b i j : nat) : ex := (ESub (k_sftr_x2b (0 + z) a b i j) (EScale (1) 2 (ESum (0 + z) 0 (EMul (ET 29 [a; (0 + z); i; j]) (ET 66 [b; (0 + z)]))))).
Definition k_sftr_x2b_2 (z a b i j : nat) : ex := (ESub (k_sftr_x2b_1 (0 + z) a b i j) (ESum (0 + z) 0 (EMul (ET 12 [(0 + z); i]) (ET 67 [a; b; (0 + z); j])))).
Definition k_sftr_x2b_3 (z a b i j : nat) : ex := (EAdd (k_sftr_x2b_2 (0 + z) a b i j) (EScale (1) 2 (ESum (0 + z) 3 (EMul (ET 15 [b; (0 + z)]) (ET 67 [a; (0 + z); i; j]))))).
Definition k_sftr_x2b_4 (z a b i j : nat) : ex := (EAdd (k_sftr_x2b_3 (0 + z) a b i j) (EScale (1) 2 (ESum (0 + z) 1 (EMul (ET 7 [a; (0 + z)]) (ET 67 [(0 + z); b; i; j]))))).
Definition k_sftr_x2b_5 (z a b i j : nat) : ex := (EAdd (k_sftr_x2b_4 (0 + z) a b i j) (EScale (1) 4 (ESum (0 + z) 0 (ESum (1 + z) 0 (EMul (ET 28 [(0 + z); (1 + z); i; j]) (ET 67 [a; b; (0 + z); (1 + z)])))))).
Definition k_sftr_x2b_6 (z a b i j : nat) : ex := (EAdd (k_sftr_x2b_5 (0 + z) a b i j) (EScale (1) 2 (ESum (0 + z) 1 (ESum (1 + z) 3 (EMul (ET 43 [a; b; (0 + z); (1 + z)]) (ET 67 [(0 + z); (1 + z); i; j])))))).
Definition k_sftr_x2b_7 (z a b i j : nat) : ex := (EAdd (k_sftr_x2b_6 (0 + z) a b i j) (ESum (0 + z) 0 (ESum (1 + z) 1 (EMul (ET 22 [a; (0 + z); i; (1 + z)]) (ET 67 [(1 + z); b; (0 + z); j]))))).
Definition k_sftr_x2b_8 (z a b i j : nat) : ex := (EAdd (k_sftr_x2b_7 (0 + z) a b i j) (ESum (0 + z) 2 (ESum (1 + z) 3 (EMul (ET 23 [a; (0 + z); i; (1 + z)]) (ET 68 [(1 + z); b; (0 + z); j]))))).
Definition k_sftr_x2b_9 (z a b i j : nat) : ex := (ESub (k_sftr_x2b_8 (0 + z) a b i j) (ESum (0 + z) 0 (ESum (1 + z) 3 (EMul (ET 35 [(0 + z); b; i; (1 + z)]) (ET 67 [a; (1 + z); (0 + z); j]))))).
Definition k_sftr_x2b_10 (z a b i j : nat) : ex := (ESub (k_sftr_x2b_9 (0 + z) a b i j) (ESum (0 + z) 2 (EMul (k_sftr_x_oo (1 + z) (0 + z) j) (ET 11 [a; b; i; (0 + z)])))).
Definition k_sftr_x2b_11 (z a b i j : nat) : ex := (EAdd (k_sftr_x2b_10 (0 + z) a b i j) (EScale (1) 2 (ESum (0 + z) 1 (EMul (k_sftr_x_vv (1 + z) b (0 + z)) (ET 10 [a; (0 + z); i; j]))))).
Definition k_sftr_x2b_12 (z a b i j : nat) : ex := (EAdd (k_sftr_x2b_11 (0 + z) a b i j) (EScale (1) 2 (ESum (0 + z) 0 (ESum (1 + z) 1 (EMul (ET 0 [(0 + z); (1 + z)]) (ET 69 [a; (1 + z); b; i; (0 + z); j])))))).
Definition k_sftr_x2b_13 (z a b i j : nat) : ex := (EAdd (k_sftr_x2b_12 (0 + z) a b i j) (EScale (1) 2 (ESum (0 + z) 2 (ESum (1 + z) 3 (EMul (ET 5 [(0 + z); (1 + z)]) (ET 70 [a; (1 + z); b; i; (0 + z); j])))))).
Definition k_sftr_x2b_14 (z a b i j : nat) : ex := (ESub (k_sftr_x2b_13 (0 + z) a b i j) (EScale (1) 2 (ESum (0 + z) 0 (ESum (1 + z) 0 (ESum (2 + z) 1 (EMul (ET 13 [(0 + z); (1 + z); i; (2 + z)]) (ET 69 [a; (2 + z); b; (0 + z); (1 + z); j]))))))).
Definition k_sftr_x2b_15 (z a b i j : nat) : ex := (ESub (k_sftr_x2b_14 (0 + z) a b i j) (ESum (0 + z) 0 (ESum (1 + z) 2 (ESum (2 + z) 3 (EMul (ET 14 [(0 + z); (1 + z); i; (2 + z)]) (ET 70 [a; (2 + z); b; (0 + z); (1 + z); j])))))).
Definition k_sftr_x2b_16 (z a b i j : nat) : ex := (EAdd (k_sftr_x2b_15 (0 + z) a b i j) (EScale (1) 4 (ESum (0 + z) 0 (ESum (1 + z) 1 (ESum (2 + z) 1 (EMul (ET 8 [a; (0 + z); (1 + z); (2 + z)]) (ET 69 [(1 + z); (2 + z); b; i; (0 + z); j]))))))).
Definition k_sftr_x2b_17 (z a b i j : nat) : ex := (EAdd (k_sftr_x2b_16 (0 + z) a b i j) (EScale (1) 2 (ESum (0 + z) 2 (ESum (1 + z) 1 (ESum (2 + z) 3 (EMul (ET 9 [a; (0 + z); (1 + z); (2 + z)]) (ET 70 [(1 + z); (2 + z); b; i; (0 + z); j]))))))).
Definition k_sftr_x2b_18 (z a b i j : nat) : ex := (EAdd (k_sftr_x2b_17 (0 + z) a b i j) (EScale (1) 2 (ESum (0 + z) 0 (ESum (1 + z) 1 (ESum (2 + z) 3 (EMul (ET 17 [(0 + z); b; (1 + z); (2 + z)]) (ET 69 [a; (1 + z); (2 + z); i; (0 + z); j]))))))).
Definition k_sftr_x2b_19 (z a b i j : nat) : ex := (EAdd (k_sftr_x2b_18 (0 + z) a b i j) (EScale (1) 4 (ESum (0 + z) 2 (ESum (1 + z) 3 (ESum (2 + z) 3 (EMul (ET 16 [b; (0 + z); (1 + z); (2 + z)]) (ET 70 [a; (2 + z); (1 + z); i; (0 + z); j]))))))).
Definition k_sftr_x2b_20 (z a b i j : nat) : ex := (ESub (k_sftr_x2b_19 (0 + z) a b i j) (k_sftr_x2b_19 (0 + z) a b j i)).
Definition k_sftr_x2c (z a b i j : nat) : ex := (EScale (1) 2 (ESum (0 + z) 3 (EMul (ET 33 [a; b; i; (0 + z)]) (ET 66 [(0 + z); j])))).
Definition k_sftr_x2c_1 (z a b i j : nat) : ex := (ESub (k_sftr_x2c (0 + z) a b i j) (ESum (0 + z) 0 (EMul (ET 37 [(0 + z); a; j; i]) (ET 66 [b; (0 + z)])))).
Definition k_sftr_x2c_2 (z a b i j : nat) : ex := (ESub (k_sftr_x2c_1 (0 + z) a b i j) (EScale (1) 2 (ESum (0 + z) 0 (EMul (ET 12 [(0 + z); j]) (ET 68 [a; b; i; (0 + z)]))))).
Definition k_sftr_x2c_3 (z a b i j : nat) : ex := (ESub (k_sftr_x2c_2 (0 + z) a b i j) (EScale (1) 2 (ESum (0 + z) 2 (EMul (ET 19 [(0 + z); i]) (ET 68 [a; b; (0 + z); j]))))).
Definition k_sftr_x2c_4 (z a b i j : nat) : ex := (EAdd (k_sftr_x2c_3 (0 + z) a b i j) (ESum (0 + z) 3 (EMul (ET 15 [a; (0 + z)]) (ET 68 [(0 + z); b; i; j])))).
Definition k_sftr_x2c_5 (z a b i j : nat) : ex := (EAdd (k_sftr_x2c_4 (0 + z) a b i j) (EScale (1) 4 (ESum (0 + z) 3 (ESum (1 + z) 3 (EMul (ET 45 [a; b; (0 + z); (1 + z)]) (ET 68 [(0 + z); (1 + z); i; j])))))).
Definition k_sftr_x2c_6 (z a b i j : nat) : ex := (EAdd (k_sftr_x2c_5 (0 + z) a b i j) (EScale (1) 2 (ESum (0 + z) 0 (ESum (1 + z) 2 (EMul (ET 34 [(0 + z); (1 + z); j; i]) (ET 68 [a; b; (1 + z); (0 + z)])))))).
Definition k_sftr_x2c_7 (z a b i j : nat) : ex := (EAdd (k_sftr_x2c_6 (0 + z) a b i j) (ESum (0 + z) 2 (ESum (1 + z) 3 (EMul (ET 25 [a; (0 + z); i; (1 + z)]) (ET 68 [(1 + z); b; (0 + z); j]))))).
Definition k_sftr_x2c_8 (z a b i j : nat) : ex := (EAdd (k_sftr_x2c_7 (0 + z) a b i j) (ESum (0 + z) 0 (ESum (1 + z) 1 (EMul (ET 26 [(0 + z); a; (1 + z); i]) (ET 67 [(1 + z); b; (0 + z); j]))))).
Definition k_sftr_x2c_9 (z a b i j : nat) : ex := (ESub (k_sftr_x2c_8 (0 + z) a b i j) (ESum (0 + z) 0 (ESum (1 + z) 3 (EMul (ET 35 [(0 + z); a; j; (1 + z)]) (ET 68 [(1 + z); b; i; (0 + z)]))))).
Definition k_sftr_x2c_10 (z a b i j : nat) : ex := (ESub (k_sftr_x2c_9 (0 + z) a b i j) (EScale (1) 2 (ESum (0 + z) 2 (EMul (k_sftr_x_oo (1 + z) (0 + z) j) (ET 18 [a; b; i; (0 + z)]))))).
Definition k_sftr_x2c_11 (z a b i j : nat) : ex := (EAdd (k_sftr_x2c_10 (0 + z) a b i j) (ESum (0 + z) 1 (EMul (k_sftr_x_vv (1 + z) b (0 + z)) (ET 11 [(0 + z); a; j; i])))).
Definition k_sftr_x2c_12 (z a b i j : nat) : ex := (EAdd (k_sftr_x2c_11 (0 + z) a b i j) (EScale (1) 2 (ESum (0 + z) 0 (ESum (1 + z) 1 (EMul (ET 0 [(0 + z); (1 + z)]) (ET 70 [(1 + z); a; b; (0 + z); i; j])))))).
Definition k_sftr_x2c_13 (z a b i j : nat) : ex := (EAdd (k_sftr_x2c_12 (0 + z) a b i j) (EScale (1) 2 (ESum (0 + z) 2 (ESum (1 + z) 3 (EMul (ET 5 [(0 + z); (1 + z)]) (ET 71 [(1 + z); a; b; (0 + z); i; j])))))).
Definition k_sftr_x2c_14 (z a b i j : nat) : ex := (ESub (k_sftr_x2c_13 (0 + z) a b i j) (EScale (1) 2 (ESum (0 + z) 0 (ESum (1 + z) 2 (ESum (2 + z) 1 (EMul (ET 21 [(0 + z); (1 + z); (2 + z); i]) (ET 70 [(2 + z); a; b; (0 + z); (1 + z); j]))))))).
Definition k_sftr_x2c_15 (z a b i j : nat) : ex := (ESub (k_sftr_x2c_14 (0 + z) a b i j) (EScale (1) 4 (ESum (0 + z) 2 (ESum (1 + z) 2 (ESum (2 + z) 3 (EMul (ET 20 [(0 + z); (1 + z); i; (2 + z)]) (ET 71 [(2 + z); a; b; (1 + z); (0 + z); j]))))))).
Definition k_sftr_x2c_16 (z a b i j : nat) : ex := (ESub (k_sftr_x2c_15 (0 + z) a b i j) (EScale (1) 4 (ESum (0 + z) 0 (ESum (1 + z) 0 (ESum (2 + z) 1 (EMul (ET 13 [(0 + z); (1 + z); j; (2 + z)]) (ET 70 [(2 + z); a; b; (1 + z); i; (0 + z)]))))))).
Definition k_sftr_x2c_17 (z a b i j : nat) : ex := (ESub (k_sftr_x2c_16 (0 + z) a b i j) (EScale (1) 2 (ESum (0 + z) 0 (ESum (1 + z) 2 (ESum (2 + z) 3 (EMul (ET 14 [(0 + z); (1 + z); j; (2 + z)]) (ET 71 [(2 + z); a; b; (1 + z); i; (0 + z)]))))))).
Definition k_sftr_x2c_18 (z a b i j : nat) : ex := (EAdd (k_sftr_x2c_17 (0 + z) a b i j) (ESum (0 + z) 0 (ESum (1 + z) 1 (ESum (2 + z) 3 (EMul (ET 17 [(0 + z); a; (1 + z); (2 + z)]) (ET 70 [(1 + z); (2 + z); b; (0 + z); i; j])))))).
Definition k_sftr_x2c_19 (z a b i j : nat) : ex := (EAdd (k_sftr_x2c_18 (0 + z) a b i j) (EScale (1) 2 (ESum (0 + z) 2 (ESum (1 + z) 3 (ESum (2 + z) 3 (EMul (ET 16 [a; (0 + z); (1 + z); (2 + z)]) (ET 71 [(2 + z); (1 + z); b; (0 + z); i; j]))))))).
Definition k_sftr_x2c_20 (z a b i j : nat) : ex := (ESub (k_sftr_x2c_19 (0 + z) a b i j) (k_sftr_x2c_19 (0 + z) b a i j)).
Definition k_sftr_x3b (z a b c i j k : nat) : ex := (EScale (-1) 2 (ESum (0 + z) 0 (EMul (ET 29 [a; (0 + z); i; j]) (ET 67 [b; c; (0 + z); k])))).
Definition k_sftr_x3b_1 (z a b c i j k : nat) : ex := (EAdd (k_sftr_x3b (0 + z) a b c i j k) (EScale (1) 4 (ESum (0 + z) 1 (EMul (ET 30 [a; b; i; (0 + z)]) (ET 67 [(0 + z); c; j; k]))))).
Definition k_sftr_x3b_2 (z a b c i j k : nat) : ex := (EAdd (k_sftr_x3b_1 (0 + z) a b c i j k) (EScale (1) 2 (ESum (0 + z) 3 (EMul (ET 40 [a; c; i; (0 + z)]) (ET 67 [b; (0 + z); j; k]))))).
Definition k_sftr_x3b_3 (z a b c i j k : nat) : ex := (ESub (k_sftr_x3b_2 (0 + z) a b c i j k) (EScale (1) 4 (ESum (0 + z) 0 (EMul (k_sftr_X_ab_ovoo_1 (1 + z) (0 + z) c j k) (ET 10 [a; b; i; (0 + z)]))))).
Definition k_sftr_x3b_4 (z a b c i j k : nat) : ex := (EAdd (k_sftr_x3b_3 (0 + z) a b c i j k) (EScale (1) 2 (ESum (0 + z) 1 (EMul (k_sftr_X_ab_vvvo (1 + z) b c (0 + z) k) (ET 10 [a; (0 + z); i; j]))))).
Definition k_sftr_x3b_5 (z a b c i j k : nat) : ex := (ESub (k_sftr_x3b_4 (0 + z) a b c i j k) (EScale (1) 2 (ESum (0 + z) 2 (EMul (k_sftr_X_ab_vooo_1 (1 + z) a (0 + z) i k) (ET 11 [b; c; j; (0 + z)]))))).
Definition k_sftr_x3b_6 (z a b c i j k : nat) : ex := (ESub (k_sftr_x3b_5 (0 + z) a b c i j k) (EScale (1) 4 (ESum (0 + z) 0 (EMul (ET 12 [(0 + z); j]) (ET 69 [a; b; c; i; (0 + z); k]))))).
Definition k_sftr_x3b_7 (z a b c i j k : nat) : ex := (EAdd (k_sftr_x3b_6 (0 + z) a b c i j k) (EScale (1) 6 (ESum (0 + z) 1 (EMul (ET 7 [b; (0 + z)]) (ET 69 [a; (0 + z); c; i; j; k]))))).
Definition k_sftr_x3b_8 (z a b c i j k : nat) : ex := (EAdd (k_sftr_x3b_7 (0 + z) a b c i j k) (EScale (1) 12 (ESum (0 + z) 3 (EMul (ET 15 [c; (0 + z)]) (ET 69 [a; b; (0 + z); i; j; k]))))).
Definition k_sftr_x3b_9 (z a b c i j k : nat) : ex := (EAdd (k_sftr_x3b_8 (0 + z) a b c i j k) (EScale (1) 8 (ESum (0 + z) 0 (ESum (1 + z) 0 (EMul (ET 28 [(0 + z); (1 + z); i; j]) (ET 69 [a; b; c; (0 + z); (1 + z); k])))))).
Definition k_sftr_x3b_10 (z a b c i j k : nat) : ex := (EAdd (k_sftr_x3b_9 (0 + z) a b c i j k) (EScale (1) 24 (ESum (0 + z) 1 (ESum (1 + z) 1 (EMul (ET 41 [a; b; (0 + z); (1 + z)]) (ET 69 [(0 + z); (1 + z); c; i; j; k])))))).
Definition k_sftr_x3b_11 (z a b c i j k : nat) : ex := (EAdd (k_sftr_x3b_10 (0 + z) a b c i j k) (EScale (1) 6 (ESum (0 + z) 1 (ESum (1 + z) 3 (EMul (ET 43 [b; c; (0 + z); (1 + z)]) (ET 69 [a; (0 + z); (1 + z); i; j; k])))))).
Definition k_sftr_x3b_12 (z a b c i j k : nat) : ex := (EAdd (k_sftr_x3b_11 (0 + z) a b c i j k) (EScale (1) 2 (ESum (0 + z) 0 (ESum (1 + z) 1 (EMul (ET 22 [a; (0 + z); i; (1 + z)]) (ET 69 [b; (1 + z); c; j; (0 + z); k])))))).
Definition k_sftr_x3b_13 (z a b c i j k : nat) : ex := (EAdd (k_sftr_x3b_12 (0 + z) a b c i j k) (EScale (1) 2 (ESum (0 + z) 2 (ESum (1 + z) 3 (EMul (ET 23 [a; (0 + z); i; (1 + z)]) (ET 70 [b; (1 + z); c; j; (0 + z); k])))))).
Definition k_sftr_x3b_14 (z a b c i j k : nat) : ex := (ESub (k_sftr_x3b_13 (0 + z) a b c i j k) (EScale (1) 6 (ESum (0 + z) 0 (ESum (1 + z) 3 (EMul (ET 35 [(0 + z); c; i; (1 + z)]) (ET 69 [a; b; (1 + z); (0 + z); j; k])))))).
Definition k_sftr_x3b_15 (z a b c i j k : nat) : ex := (ESub (k_sftr_x3b_14 (0 + z) a b c i j k) (k_sftr_x3b_14 (0 + z) b a c i j k)).
Definition k_sftr_x3b_16 (z a b c i j k : nat) : ex := (ESub (k_sftr_x3b_15 (0 + z) a b c i j k) (k_sftr_x3b_15 (0 + z) a b c i k j)).
Definition k_sftr_x3b_17 (z a b c i j k : nat) : ex := (ESub (k_sftr_x3b_16 (0 + z) a b c i j k) (EAdd (k_sftr_x3b_16 (0 + z) a b c j i k) (k_sftr_x3b_16 (0 + z) a b c k j i))).
Definition k_sftr_x3c (z a b c i j k : nat) : ex := (EOpp (ESum (0 + z) 0 (EMul (ET 37 [(0 + z); b; i; j]) (ET 67 [a; c; (0 + z); k])))).
Definition k_sftr_x3c_1 (z a b c i j k : nat) : ex := (ESub (k_sftr_x3c (0 + z) a b c i j k) (EScale (1) 4 (ESum (0 + z) 0 (EMul (ET 29 [a; (0 + z); i; k]) (ET 68 [b; c; j; (0 + z)]))))).
Definition k_sftr_x3c_2 (z a b c i j k : nat) : ex := (ESub (k_sftr_x3c_1 (0 + z) a b c i j k) (EScale (1) 2 (ESum (0 + z) 2 (EMul (ET 38 [a; (0 + z); i; j]) (ET 68 [b; c; (0 + z); k]))))).
Definition k_sftr_x3c_3 (z a b c i j k : nat) : ex := (EAdd (k_sftr_x3c_2 (0 + z) a b c i j k) (ESum (0 + z) 3 (EMul (ET 40 [a; b; i; (0 + z)]) (ET 68 [(0 + z); c; j; k])))).
Definition k_sftr_x3c_4 (z a b c i j k : nat) : ex := (EAdd (k_sftr_x3c_3 (0 + z) a b c i j k) (EScale (1) 2 (ESum (0 + z) 1 (EMul (ET 39 [a; b; (0 + z); j]) (ET 67 [(0 + z); c; i; k]))))).
Definition k_sftr_x3c_5 (z a b c i j k : nat) : ex := (EAdd (k_sftr_x3c_4 (0 + z) a b c i j k) (EScale (1) 4 (ESum (0 + z) 3 (EMul (ET 33 [b; c; j; (0 + z)]) (ET 67 [a; (0 + z); i; k]))))).
Definition k_sftr_x3c_6 (z a b c i j k : nat) : ex := (ESub (k_sftr_x3c_5 (0 + z) a b c i j k) (EScale (1) 2 (ESum (0 + z) 0 (EMul (k_sftr_X_ab_ovoo_1 (1 + z) (0 + z) c i k) (ET 11 [a; b; (0 + z); j]))))).
Definition k_sftr_x3c_7 (z a b c i j k : nat) : ex := (ESub (k_sftr_x3c_6 (0 + z) a b c i j k) (ESum (0 + z) 2 (EMul (k_sftr_X_bb_ovoo (1 + z) (0 + z) c j k) (ET 11 [a; b; i; (0 + z)])))).
Definition k_sftr_x3c_8 (z a b c i j k : nat) : ex := (ESub (k_sftr_x3c_7 (0 + z) a b c i j k) (EScale (1) 4 (ESum (0 + z) 2 (EMul (k_sftr_X_ab_vooo_1 (1 + z) a (0 + z) i k) (ET 18 [b; c; j; (0 + z)]))))).
Definition k_sftr_x3c_9 (z a b c i j k : nat) : ex := (EAdd (k_sftr_x3c_8 (0 + z) a b c i j k) (ESum (0 + z) 1 (EMul (k_sftr_X_ab_vvvo (1 + z) a c (0 + z) k) (ET 11 [(0 + z); b; i; j])))).
Definition k_sftr_x3c_10 (z a b c i j k : nat) : ex := (EAdd (k_sftr_x3c_9 (0 + z) a b c i j k) (EScale (1) 2 (ESum (0 + z) 3 (EMul (k_sftr_X_bb_vvvo_1 (1 + z) b c (0 + z) k) (ET 11 [a; (0 + z); i; j]))))).
Definition k_sftr_x3c_11 (z a b c i j k : nat) : ex := (EAdd (k_sftr_x3c_10 (0 + z) a b c i j k) (EScale (1) 4 (ESum (0 + z) 1 (EMul (k_sftr_X_bb_vvov_1 (1 + z) b c j (0 + z)) (ET 10 [a; (0 + z); i; k]))))).
Definition k_sftr_x3c_12 (z a b c i j k : nat) : ex := (ESub (k_sftr_x3c_11 (0 + z) a b c i j k) (EScale (1) 2 (ESum (0 + z) 0 (EMul (ET 12 [(0 + z); i]) (ET 70 [a; b; c; (0 + z); j; k]))))).
Definition k_sftr_x3c_13 (z a b c i j k : nat) : ex := (ESub (k_sftr_x3c_12 (0 + z) a b c i j k) (EScale (1) 4 (ESum (0 + z) 2 (EMul (ET 19 [(0 + z); j]) (ET 70 [a; b; c; i; (0 + z); k]))))).
Definition k_sftr_x3c_14 (z a b c i j k : nat) : ex := (EAdd (k_sftr_x3c_13 (0 + z) a b c i j k) (EScale (1) 4 (ESum (0 + z) 1 (EMul (ET 7 [a; (0 + z)]) (ET 70 [(0 + z); b; c; i; j; k]))))).
Definition k_sftr_x3c_15 (z a b c i j k : nat) : ex := (EAdd (k_sftr_x3c_14 (0 + z) a b c i j k) (EScale (1) 2 (ESum (0 + z) 3 (EMul (ET 15 [b; (0 + z)]) (ET 70 [a; (0 + z); c; i; j; k]))))).
Definition k_sftr_x3c_16 (z a b c i j k : nat) : ex := (EAdd (k_sftr_x3c_15 (0 + z) a b c i j k) (EScale (1) 8 (ESum (0 + z) 0 (ESum (1 + z) 0 (EMul (ET 28 [(0 + z); (1 + z); i; k]) (ET 70 [a; b; c; (0 + z); j; (1 + z)])))))).
Definition k_sftr_x3c_17 (z a b c i j k : nat) : ex := (EAdd (k_sftr_x3c_16 (0 + z) a b c i j k) (EScale (1) 2 (ESum (0 + z) 0 (ESum (1 + z) 2 (EMul (ET 34 [(0 + z); (1 + z); i; j]) (ET 70 [a; b; c; (0 + z); (1 + z); k])))))).
Definition k_sftr_x3c_18 (z a b c i j k : nat) : ex := (EAdd (k_sftr_x3c_17 (0 + z) a b c i j k) (EScale (1) 2 (ESum (0 + z) 1 (ESum (1 + z) 3 (EMul (ET 43 [a; c; (0 + z); (1 + z)]) (ET 70 [(0 + z); b; (1 + z); i; j; k])))))).
Definition k_sftr_x3c_19 (z a b c i j k : nat) : ex := (EAdd (k_sftr_x3c_18 (0 + z) a b c i j k) (EScale (1) 8 (ESum (0 + z) 3 (ESum (1 + z) 3 (EMul (ET 45 [b; c; (0 + z); (1 + z)]) (ET 70 [a; (0 + z); (1 + z); i; j; k])))))).
Definition k_sftr_x3c_20 (z a b c i j k : nat) : ex := (EAdd (k_sftr_x3c_19 (0 + z) a b c i j k) (EScale (1) 2 (ESum (0 + z) 0 (ESum (1 + z) 1 (EMul (ET 22 [a; (0 + z); i; (1 + z)]) (ET 70 [(1 + z); b; c; (0 + z); j; k])))))).
Definition k_sftr_x3c_21 (z a b c i j k : nat) : ex := (EAdd (k_sftr_x3c_20 (0 + z) a b c i j k) (EScale (1) 2 (ESum (0 + z) 2 (ESum (1 + z) 3 (EMul (ET 23 [a; (0 + z); i; (1 + z)]) (ET 71 [(1 + z); b; c; (0 + z); j; k])))))).
Definition k_sftr_x3c_22 (z a b c i j k : nat) : ex := (EAdd (k_sftr_x3c_21 (0 + z) a b c i j k) (EScale (1) 2 (ESum (0 + z) 0 (ESum (1 + z) 1 (EMul (ET 26 [(0 + z); b; (1 + z); j]) (ET 69 [a; (1 + z); c; i; (0 + z); k])))))).
Definition k_sftr_x3c_23 (z a b c i j k : nat) : ex := (EAdd (k_sftr_x3c_22 (0 + z) a b c i j k) (EScale (1) 2 (ESum (0 + z) 2 (ESum (1 + z) 3 (EMul (ET 25 [b; (0 + z); j; (1 + z)]) (ET 70 [a; (1 + z); c; i; (0 + z); k])))))).
Definition k_sftr_x3c_24 (z a b c i j k : nat) : ex := (ESub (k_sftr_x3c_23 (0 + z) a b c i j k) (EScale (1) 4 (ESum (0 + z) 2 (ESum (1 + z) 1 (EMul (ET 36 [a; (0 + z); (1 + z); j]) (ET 70 [(1 + z); b; c; i; (0 + z); k])))))).
Definition k_sftr_x3c_25 (z a b c i j k : nat) : ex := (ESub (k_sftr_x3c_24 (0 + z) a b c i j k) (ESum (0 + z) 0 (ESum (1 + z) 3 (EMul (ET 35 [(0 + z); b; i; (1 + z)]) (ET 70 [a; (1 + z); c; (0 + z); j; k]))))).
Definition k_sftr_x3c_26 (z a b c i j k : nat) : ex := (ESub (k_sftr_x3c_25 (0 + z) a b c i j k) (k_sftr_x3c_25 (0 + z) a c b i j k)).
Definition k_sftr_x3c_27 (z a b c i j k : nat) : ex := (ESub (k_sftr_x3c_26 (0 + z) a b c i j k) (k_sftr_x3c_26 (0 + z) a b c k j i)).
Definition k_sftr_x3d (z a b c i j k : nat) : ex := (EScale (-1) 4 (ESum (0 + z) 2 (EMul (ET 32 [a; (0 + z); i; j]) (ET 68 [b; c; (0 + z); k])))).
Definition k_sftr_x3d_1 (z a b c i j k : nat) : ex := (ESub (k_sftr_x3d (0 + z) a b c i j k) (EScale (1) 2 (ESum (0 + z) 0 (EMul (ET 37 [(0 + z); a; k; i]) (ET 68 [b; c; j; (0 + z)]))))).
Definition k_sftr_x3d_2 (z a b c i j k : nat) : ex := (EAdd (k_sftr_x3d_1 (0 + z) a b c i j k) (EScale (1) 2 (ESum (0 + z) 3 (EMul (ET 33 [a; b; i; (0 + z)]) (ET 68 [(0 + z); c; j; k]))))).
Definition k_sftr_x3d_3 (z a b c i j k : nat) : ex := (ESub (k_sftr_x3d_2 (0 + z) a b c i j k) (EScale (1) 2 (ESum (0 + z) 2 (EMul (k_sftr_X_bb_ovoo (1 + z) (0 + z) c j k) (ET 18 [a; b; i; (0 + z)]))))).
Definition k_sftr_x3d_4 (z a b c i j k : nat) : ex := (EAdd (k_sftr_x3d_3 (0 + z) a b c i j k) (EScale (1) 2 (ESum (0 + z) 1 (EMul (k_sftr_X_bb_vvov_1 (1 + z) b c j (0 + z)) (ET 11 [(0 + z); a; k; i]))))).
Definition k_sftr_x3d_5 (z a b c i j k : nat) : ex := (EAdd (k_sftr_x3d_4 (0 + z) a b c i j k) (EScale (1) 4 (ESum (0 + z) 3 (EMul (k_sftr_X_bb_vvvo_1 (1 + z) b c (0 + z) k) (ET 18 [a; (0 + z); i; j]))))).
Definition k_sftr_x3d_6 (z a b c i j k : nat) : ex := (ESub (k_sftr_x3d_5 (0 + z) a b c i j k) (EScale (1) 6 (ESum (0 + z) 2 (EMul (ET 19 [(0 + z); i]) (ET 71 [a; b; c; (0 + z); j; k]))))).
Definition k_sftr_x3d_7 (z a b c i j k : nat) : ex := (ESub (k_sftr_x3d_6 (0 + z) a b c i j k) (EScale (1) 12 (ESum (0 + z) 0 (EMul (ET 12 [(0 + z); k]) (ET 71 [a; b; c; i; j; (0 + z)]))))).
Definition k_sftr_x3d_8 (z a b c i j k : nat) : ex := (EAdd (k_sftr_x3d_7 (0 + z) a b c i j k) (EScale (1) 4 (ESum (0 + z) 3 (EMul (ET 15 [c; (0 + z)]) (ET 71 [a; b; (0 + z); i; j; k]))))).
Definition k_sftr_x3d_9 (z a b c i j k : nat) : ex := (EAdd (k_sftr_x3d_8 (0 + z) a b c i j k) (EScale (1) 24 (ESum (0 + z) 2 (ESum (1 + z) 2 (EMul (ET 31 [(0 + z); (1 + z); i; j]) (ET 71 [a; b; c; (0 + z); (1 + z); k])))))).
Definition k_sftr_x3d_10 (z a b c i j k : nat) : ex := (EAdd (k_sftr_x3d_9 (0 + z) a b c i j k) (EScale (1) 6 (ESum (0 + z) 0 (ESum (1 + z) 2 (EMul (ET 34 [(0 + z); (1 + z); k; j]) (ET 71 [a; b; c; i; (1 + z); (0 + z)])))))).
Definition k_sftr_x3d_11 (z a b c i j k : nat) : ex := (EAdd (k_sftr_x3d_10 (0 + z) a b c i j k) (EScale (1) 8 (ESum (0 + z) 3 (ESum (1 + z) 3 (EMul (ET 45 [a; b; (0 + z); (1 + z)]) (ET 71 [(0 + z); (1 + z); c; i; j; k])))))).
Definition k_sftr_x3d_12 (z a b c i j k : nat) : ex := (EAdd (k_sftr_x3d_11 (0 + z) a b c i j k) (EScale (1) 2 (ESum (0 + z) 0 (ESum (1 + z) 1 (EMul (ET 26 [(0 + z); a; (1 + z); i]) (ET 70 [(1 + z); b; c; (0 + z); j; k])))))).
Definition k_sftr_x3d_13 (z a b c i j k : nat) : ex := (EAdd (k_sftr_x3d_12 (0 + z) a b c i j k) (EScale (1) 2 (ESum (0 + z) 2 (ESum (1 + z) 3 (EMul (ET 25 [a; (0 + z); i; (1 + z)]) (ET 71 [(1 + z); b; c; (0 + z); j; k])))))).
Definition k_sftr_x3d_14 (z a b c i j k : nat) : ex := (ESub (k_sftr_x3d_13 (0 + z) a b c i j k) (EScale (1) 4 (ESum (0 + z) 0 (ESum (1 + z) 3 (EMul (ET 35 [(0 + z); b; k; (1 + z)]) (ET 71 [a; (1 + z); c; i; j; (0 + z)])))))).
Definition k_sftr_x3d_15 (z a b c i j k : nat) : ex := (ESub (k_sftr_x3d_14 (0 + z) a b c i j k) (k_sftr_x3d_14 (0 + z) a b c j i k)).
Definition k_sftr_x3d_16 (z a b c i j k : nat) : ex := (ESub (k_sftr_x3d_15 (0 + z) a b c i j k) (k_sftr_x3d_15 (0 + z) a c b i j k)).
Definition k_sftr_x3d_17 (z a b c i j k : nat) : ex := (ESub (k_sftr_x3d_16 (0 + z) a b c i j k) (EAdd (k_sftr_x3d_16 (0 + z) b a c i j k) (k_sftr_x3d_16 (0 + z) c b a i j k))).
Section S_sft.
Variables (d : dims) (X X' : ints) (T T' : amps) (Y : sftv).
Hypothesis (HX : ints_agree d X X') (Ta : forall a b i j, x_aa T a b i j = x_aa T' a b i j) (Tb : forall a b i j, x_ab T a b i j = x_ab T' a b i j) (Tc : forall a b i j, x_bb T a b i j = x_bb T' a b i j).
Lemma sft_same_b p q : p < nub d -> q < noa d -> sft_b (sft_HR d X T Y) p q = sft_b (sft_HR d X' T' Y) p q.
Proof. intros. apply (skel d X X' T T' [ap2 (sft_b Y); ap4 (sft_ab Y); ap4 (sft_bb Y); ap6 (sft_aab Y); ap6 (sft_abb Y); ap6 (sft_bbb Y)] [(0, 3); (1, 0)] (k_sftr_x1b_11 10 0 1) (venv [p; q]) HX Ta Tb Tc); [cbn [length]; lia|vm_compute; reflexivity|rng6]. Qed.
Lemma sft_same_ab p q r s : p < nua d -> q < nub d -> r < noa d -> s < noa d -> sft_ab (sft_HR d X T Y) p q r s = sft_ab (sft_HR d X' T' Y) p q r s.
Proof. intros. apply (skel d X X' T T' [ap2 (sft_b Y); ap4 (sft_ab Y); ap4 (sft_bb Y); ap6 (sft_aab Y); ap6 (sft_abb Y); ap6 (sft_bbb Y)] [(0, 1); (1, 3); (2, 0); (3, 0)] (k_sftr_x2b_20 10 0 1 2 3) (venv [p; q; r; s]) HX Ta Tb Tc); [cbn [length]; lia|vm_compute; reflexivity|rng6]. Qed.
Lemma sft_same_bb p q r s : p < nub d -> q < nub d -> r < nob d -> s < noa d -> sft_bb (sft_HR d X T Y) p q r s = sft_bb (sft_HR d X' T' Y) p q r s.
Proof. intros. apply (skel d X X' T T' [ap2 (sft_b Y); ap4 (sft_ab Y); ap4 (sft_bb Y); ap6 (sft_aab Y); ap6 (sft_abb Y); ap6 (sft_bbb Y)] [(0, 3); (1, 3); (2, 2); (3, 0)] (k_sftr_x2c_20 10 0 1 2 3) (venv [p; q; r; s]) HX Ta Tb Tc); [cbn [length]; lia|vm_compute; reflexivity|rng6]. Qed.
Lemma sft_same_aab p q r s t u : p < nua d -> q < nua d -> r < nub d -> s < noa d -> t < noa d -> u < noa d -> sft_aab (sft_HR d X T Y) p q r s t u = sft_aab (sft_HR d X' T' Y) p q r s t u.
Proof. intros. apply (skel d X X' T T' [ap2 (sft_b Y); ap4 (sft_ab Y); ap4 (sft_bb Y); ap6 (sft_aab Y); ap6 (sft_abb Y); ap6 (sft_bbb Y)] [(0, 1); (1, 1); (2, 3); (3, 0); (4, 0); (5, 0)] (k_sftr_x3b_17 10 0 1 2 3 4 5) (venv [p; q; r; s; t; u]) HX Ta Tb Tc); [cbn [length]; lia|vm_compute; reflexivity|rng6]. Qed.
Lemma sft_same_abb p q r s t u : p < nua d -> q < nub d -> r < nub d -> s < noa d -> t < nob d -> u < noa d -> sft_abb (sft_HR d X T Y) p q r s t u = sft_abb (sft_HR d X' T' Y) p q r s t u.
Proof. intros. apply (skel d X X' T T' [ap2 (sft_b Y); ap4 (sft_ab Y); ap4 (sft_bb Y); ap6 (sft_aab Y); ap6 (sft_abb Y); ap6 (sft_bbb Y)] [(0, 1); (1, 3); (2, 3); (3, 0); (4, 2); (5, 0)] (k_sftr_x3c_27 10 0 1 2 3 4 5) (venv [p; q; r; s; t; u]) HX Ta Tb Tc); [cbn [length]; lia|vm_compute; reflexivity|rng6]. Qed.
Lemma sft_same_bbb p q r s t u : p < nub d -> q < nub d -> r < nub d -> s < nob d -> t < nob d -> u < noa d -> sft_bbb (sft_HR d X T Y) p q r s t u = sft_bbb (sft_HR d X' T' Y) p q r s t u.
Proof. intros. apply (skel d X X' T T' [ap2 (sft_b Y); ap4 (sft_ab Y); ap4 (sft_bb Y); ap6 (sft_aab Y); ap6 (sft_abb Y); ap6 (sft_bbb Y)] [(0, 3); (1, 3); (2, 3); (3, 2); (4, 2); (5, 0)] (k_sftr_x3d_17 10 0 1 2 3 4 5) (venv [p; q; r; s; t; u]) HX Ta Tb Tc); [cbn [length]; lia|vm_compute; reflexivity|rng6]. Qed.
Lemma sft_root_same w : sft_root d (sft_HR d X T Y) Y w <-> sft_root d (sft_HR d X' T' Y) Y w.
Proof.
  unfold sft_root. split; intros G; decompose [and] G; repeat match goal with |- _ /\ _ => split end; intros; first [rewrite sft_same_b by assumption | rewrite sft_same_ab by assumption | rewrite sft_same_bb by assumption | rewrite sft_same_aab by assumption | rewrite sft_same_abb by assumption | rewrite sft_same_bbb by assumption | rewrite <- sft_same_b by assumption | rewrite <- sft_same_ab by assumption | rewrite <- sft_same_bb by assumption | rewrite <- sft_same_aab by assumption | rewrite <- sft_same_abb by assumption | rewrite <- sft_same_bbb by assumption]; auto.
Qed.
End S_sft.
