(** The computations behind FockProps.v: expectation values of bra H exp(T) against the CCSD residual (proof support). *)
From Coq Require Import Reals Arith NArith List Bool Lia Lra QArith Qreals ZArith FunctionalExtensionality.
From Verif Require Import RSum IntegralsModel TensorObjs TensorAlg TensorSpec CcsdModel CcsdUpdate CcsdReify FockSpec FockCar FockWick FockArrays FockCcSpec FockTerms FockExp.
Import ListNotations.
Local Open Scope nat_scope.

(** T^k / k! as a list of terms *)
Definition t_ops : list (nat -> term) :=
  [fun z => one_term 1 z 0 1 0; fun z => one_term 1 z 1 3 2; fun z => two_term (1 # 4) z 2 1 1 0 0; fun z => two_term 1 z 3 1 3 0 2; fun z => two_term (1 # 4) z 4 3 3 2 2].
Definition exps (k : nat) : list term := multi t_ops 10 k.
Definition hbra (b : list op) : list term := pmul [mkTerm 1 [] [] b] (h_terms 4).
Definition heexp (b : list op) : list term := let p := hbra b in flat_map (fun k => pmulb p (exps k)) [0; 1; 2; 3; 4].
Definition eexp (b : list op) : list term := flat_map (fun k => pmulb [mkTerm 1 [] [] b] (exps k)) [0; 1; 2; 3; 4].

(** Array numbers of CcsdReify.v in the numbering of FockArrays.v *)
Definition to_fock : list nat := [10; 20; 0; 36; 1; 14; 52; 12; 28; 44; 2; 3; 9; 18; 34; 16; 60; 40; 4; 13; 50; 35; 26; 42; 11; 58; 39; 15; 17; 25; 30; 49; 57; 62; 33; 38; 43; 37; 41; 47; 46; 32; 29; 48; 45; 64; 61; 0; 1; 2; 3; 4; 24; 19; 56; 51; 22; 27; 54; 59; 21; 31; 53; 63; 23; 55].
Fixpoint retag (m : list nat) (e : ex) : ex :=
  match e with
  | EC n d => EC n d
  | ET k ix => ET (nth k m 99) ix
  | EAdd a b => EAdd (retag m a) (retag m b)
  | ESub a b => ESub (retag m a) (retag m b)
  | EOpp a => EOpp (retag m a)
  | EMul a b => EMul (retag m a) (retag m b)
  | EScale n d a => EScale n d (retag m a)
  | ESum x d a => ESum x d (retag m a)
  end.
Lemma retag_ok m dim ten ten' : (forall k l, ten k l = ten' (nth k m 99) l) -> forall e v, den dim ten' (retag m e) v = den dim ten e v.
Proof.
  intros H. induction e as [n d|k ix|a IHa b IHb|a IHa b IHb|a IHa|a IHa b IHb|n d a IHa|x d a IHa]; intros v; cbn [retag den]; rewrite ?IHa, ?IHb; try reflexivity.
  - now rewrite H.
  - apply sumn_ext. intros i _. apply IHa.
Qed.
Definition rt e := retag to_fock e.
Lemma to_fock_ok d H T k l : tenv (jac_arrays d H T T) k l = tenv (fock_arrays H T) (nth k to_fock 99) l.
Proof.
  do 66 (destruct k as [|k]; [reflexivity|]). unfold to_fock. rewrite (nth_overflow _ 99) by (cbn [length]; lia). unfold tenv. rewrite nth_overflow by (cbn [length jac_arrays]; lia). reflexivity.
Qed.

(** Reference energy *)
Definition f_hf : ex :=
  ESub (ESub (ESub (EAdd (ESum 10 0 (ET 9 [10; 10])) (ESum 10 2 (ET 13 [10; 10])))
       (EScale 1 2 (ESum 10 0 (ESum 11 0 (ET 17 [10; 11; 10; 11])))))
       (ESum 10 0 (ESum 11 2 (ET 33 [10; 11; 10; 11]))))
       (EScale 1 2 (ESum 10 2 (ESum 11 2 (ET 49 [10; 11; 10; 11])))).
Definition f_en : ex := EAdd f_hf (rt (r_en_Ecorr 10)).
Definition bra_a : list op := [C 0 1; A 1 0].
Definition bra_b : list op := [C 2 1; A 3 0].
Definition bra_aa : list op := [C 0 2; C 0 3; A 1 1; A 1 0].
Definition bra_ab : list op := [C 0 2; C 2 3; A 3 1; A 1 0].
Definition bra_bb : list op := [C 2 2; C 2 3; A 3 1; A 3 0].
Definition ext_a : list (nat * nat) := [(0, 1); (1, 0)].
Definition ext_b : list (nat * nat) := [(0, 3); (1, 2)].
Definition ext_aa : list (nat * nat) := [(0, 1); (1, 1); (2, 0); (3, 0)].
Definition ext_ab : list (nat * nat) := [(0, 1); (1, 3); (2, 0); (3, 2)].
Definition ext_bb : list (nat * nat) := [(0, 3); (1, 3); (2, 2); (3, 2)].
Definition ta (a i : nat) := ET 0 [a; i].
Definition tb (a i : nat) := ET 1 [a; i].
Definition ra (a i : nat) := rt (r_ccsd_res_a 10 a i).
Definition rb (a i : nat) := rt (r_ccsd_res_b 10 a i).
(** coefficients of exp(T) on the doubly excited determinants *)
Definition c_aa := ESub (EAdd (ET 2 [0; 1; 2; 3]) (EMul (ta 0 2) (ta 1 3))) (EMul (ta 1 2) (ta 0 3)).
Definition c_ab := EAdd (ET 3 [0; 1; 2; 3]) (EMul (ta 0 2) (tb 1 3)).
Definition c_bb := ESub (EAdd (ET 4 [0; 1; 2; 3]) (EMul (tb 0 2) (tb 1 3))) (EMul (tb 1 2) (tb 0 3)).
Definition d_a := EAdd (EMul f_en (ta 0 1)) (ra 0 1).
Definition d_b := EAdd (EMul f_en (tb 0 1)) (rb 0 1).
Definition mixed (r t : nat -> nat -> ex) (r' t' : nat -> nat -> ex) a b i j := EAdd (EMul (r a i) (t' b j)) (EMul (t a i) (r' b j)).
Definition d_ab := EAdd (EMul f_en c_ab) (EAdd (rt (r_ccsd_res_ab 10 0 1 2 3)) (mixed ra ta rb tb 0 1 2 3)).
Definition d_aa := EAdd (EMul f_en c_aa) (EAdd (rt (r_resid_aa 10 0 1 2 3)) (ESub (mixed ra ta ra ta 0 1 2 3) (mixed ra ta ra ta 1 0 2 3))).
Definition d_bb := EAdd (EMul f_en c_bb) (EAdd (rt (r_resid_bb 10 0 1 2 3)) (ESub (mixed rb tb rb tb 0 1 2 3) (mixed rb tb rb tb 1 0 2 3))).
Definition fsame := fock_same fock_tab.
Lemma k_en : fsame [] (heexp []) f_en = true. Proof. vm_compute. reflexivity. Qed.
Lemma k_en0 : fsame [] (eexp []) (EC 1 1) = true. Proof. vm_compute. reflexivity. Qed.
Lemma k_a0 : fsame ext_a (eexp bra_a) (ta 0 1) = true. Proof. vm_compute. reflexivity. Qed.
Lemma k_b0 : fsame ext_b (eexp bra_b) (tb 0 1) = true. Proof. vm_compute. reflexivity. Qed.
Lemma k_aa0 : fsame ext_aa (eexp bra_aa) c_aa = true. Proof. vm_compute. reflexivity. Qed.
Lemma k_ab0 : fsame ext_ab (eexp bra_ab) c_ab = true. Proof. vm_compute. reflexivity. Qed.
Lemma k_bb0 : fsame ext_bb (eexp bra_bb) c_bb = true. Proof. vm_compute. reflexivity. Qed.
Lemma k_a : fsame ext_a (heexp bra_a) d_a = true. Proof. vm_compute. reflexivity. Qed.
Lemma k_b : fsame ext_b (heexp bra_b) d_b = true. Proof. vm_compute. reflexivity. Qed.
Lemma k_ab : fsame ext_ab (heexp bra_ab) d_ab = true. Proof. vm_compute. reflexivity. Qed.
Lemma k_aa : fsame ext_aa (heexp bra_aa) d_aa = true. Proof. vm_compute. reflexivity. Qed.
Lemma k_bb : fsame ext_bb (heexp bra_bb) d_bb = true. Proof. vm_compute. reflexivity. Qed.

Lemma fock_syms H T : antisym_ints H -> antisym_amps T -> Forall (fun g => okalt (tenv (fock_arrays H T)) (fst g) (snd g)) fock_gens.
Proof. intros HH HT. sym_all. Qed.
Lemma fsame_ok d H T ext p e v : antisym_ints H -> antisym_amps T -> ext_ok (fdim d) ext v -> fsame ext p e = true ->
  psem (noa d) (nob d) (fdim d) (ften H T) p v (pure (reference (noa d) (nob d))) (reference (noa d) (nob d)) = den (fdim d) (ften H T) e v.
Proof.
  intros HH HT HE HS. apply (fock_same_sound (noa d) (nob d) (fdim d) (ften H T) 65 fock_gens 66 fock_tab ext p e v); try reflexivity.
  - now apply fock_syms.
  - exact HE.
  - exact HS.
Qed.

