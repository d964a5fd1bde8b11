(** Shared steps of the sector proofs: extending the list of arrays, energy and residual as expressions (proof support). *)
From Coq Require Import Reals Arith NArith List Bool Lia Lra QArith Qreals ZArith FunctionalExtensionality.
From Verif Require Import RSum IntegralsModel TensorObjs TensorAlg TensorSpec CcsdModel CcsdUpdate CcsdReify CcsdProps FockSpec FockCar FockWick FockArrays FockCcSpec FockTerms FockHam FockExp FockLevel FockCheck FockState FockNear FockProj FockSector.
Import ListNotations.
Local Open Scope R_scope.

Definition to_sector (k : nat) : list nat := to_fock ++ seq 66 k.
Lemma to_sector_ok d H T Rs k l : (length Rs <= 33)%nat -> tenv (jac_arrays d H T T ++ Rs) k l = tenv (fock_arrays H T ++ Rs) (nth k (to_sector (length Rs)) 99%nat) l.
Proof.
  intros HL. unfold to_sector. destruct (Nat.lt_ge_cases k 66) as [Hk|Hk].
  - rewrite tenv_app by exact Hk. rewrite app_nth1 by exact Hk. rewrite to_fock_ok. rewrite tenv_app; [reflexivity|].
    change (length (fock_arrays H T)) with 66%nat. assert (B : forallb (fun x => Nat.ltb x 66) to_fock = true) by reflexivity. rewrite forallb_forall in B.
    apply Nat.ltb_lt, B, nth_In. exact Hk.
  - rewrite app_nth2 by exact Hk. change (length to_fock) with 66%nat. unfold tenv. rewrite app_nth2 by exact Hk. change (length (jac_arrays d H T T)) with 66%nat.
    destruct (Nat.lt_ge_cases (k - 66) (length Rs)) as [Hl|Hl].
    + rewrite seq_nth by exact Hl. rewrite app_nth2 by (change (length (fock_arrays H T)) with 66%nat; lia). change (length (fock_arrays H T)) with 66%nat.
      now replace (66 + (k - 66) - 66)%nat with (k - 66)%nat by lia.
    + rewrite nth_overflow by exact Hl. rewrite (nth_overflow (seq 66 (length Rs))) by (rewrite seq_length; lia).
      rewrite nth_overflow; [reflexivity|]. rewrite app_length. change (length (fock_arrays H T)) with 66%nat. lia.
Qed.
Lemma retag_sector d H T Rs e v : (length Rs <= 33)%nat ->
  den (fdim d) (tenv (fock_arrays H T ++ Rs)) (retag (to_sector (length Rs)) e) v = den (fdim d) (tenv (jac_arrays d H T T ++ Rs)) e v.
Proof. intros HL. apply retag_ok. intros k l. now apply to_sector_ok. Qed.

Lemma fock_gens_low : forallb (fun g => Nat.ltb (fst g) 66 && Nat.ltb (fst (fst (snd g))) 66) fock_gens = true. Proof. vm_compute. reflexivity. Qed.
Lemma sector_syms H T Rs gens : antisym_ints H -> antisym_amps T -> Forall (fun g => okalt (tenv (fock_arrays H T ++ Rs)) (fst g) (snd g)) gens ->
  Forall (fun g => okalt (tenv (fock_arrays H T ++ Rs)) (fst g) (snd g)) (fock_gens ++ gens).
Proof.
  intros HH HT Hg. apply Forall_app. split; [|exact Hg]. assert (S := fock_syms H T HH HT). assert (L := fock_gens_low). rewrite forallb_forall in L. rewrite Forall_forall in *.
  intros g Hin. specialize (S g Hin). specialize (L g Hin). apply andb_prop in L as (L1 & L2). apply Nat.ltb_lt in L1, L2. destruct g as (k & (k' & p) & s). cbn [fst snd] in *.
  destruct S as (S1 & S2). split; [|exact S2]. intros ix Hx. rewrite !tenv_app by assumption. now apply S1.
Qed.
Ltac okswap H := split; [intros ix Hx; cbn [length] in Hx; destruct ix as [|? [|? [|? [|? [|? ix]]]]]; try discriminate; cbn -[Rmult IZR]; rewrite H; cbn [sgn]; ring
  |cbn [In length]; intros; lia].

Section E.
Variables (d : dims) (I : integrals) (T : amps) (Rs : list (list nat -> R)).
Notation H := (fock_ints (noa d) (nob d) I).
Notation ten := (tenv (fock_arrays H T ++ Rs)).
Notation E := (scf_energy (noa d) (nob d) I + cc_energy d H T).
Definition elow (e : ex) : bool := forallb (fun k => Nat.ltb k 66) (exids e).
Lemma den_low e v : elow e = true -> den (fdim d) ten e v = den (fdim d) (ften H T) e v.
Proof. intros L. apply den_ids. intros k Hk. unfold elow in L. rewrite forallb_forall in L. specialize (L k Hk). apply Nat.ltb_lt in L. now apply tenv_app. Qed.
Lemma sector_en v : den (fdim d) ten f_en v = E.
Proof. rewrite den_low by (vm_compute; reflexivity). apply en_den. Qed.
Lemma sector_rt e v : elow (rt e) = true -> den (fdim d) ten (rt e) v = den (fdim d) (tenv (jac_arrays d H T T)) e v.
Proof. intros L. rewrite den_low by exact L. apply rt_ok. Qed.
End E.
Lemma half : Q2R (1 # 2) = / 2. Proof. unfold Q2R. cbn [Qnum Qden]. lra. Qed.
Lemma ext_1 d x c : (x < fdim d c)%nat -> ext_ok (fdim d) [(0%nat, c)] (venv [x]).
Proof. intros Hx k e [[= <- <-]|[]]. exact Hx. Qed.
Lemma ext_3 d x y z c e f : (x < fdim d c)%nat -> (y < fdim d e)%nat -> (z < fdim d f)%nat -> ext_ok (fdim d) [(0%nat, c); (1%nat, e); (2%nat, f)] (venv [x; y; z]).
Proof. intros Hx Hy Hz k u [[= <- <-]|[[= <- <-]|[[= <- <-]|[]]]]; assumption. Qed.
