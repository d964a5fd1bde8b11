(** Generated by tools/gen_crpoly.py: the residual of the CCSDT equations without triples, the part of it linear in the triples paired with left
    amplitudes, and the part diagonal in one block of triples, against the moments, left amplitudes and denominators of CrccModel.v (proof support). *)
From Coq Require Import Reals Arith NArith List Bool Lia Lra QArith Qreals ZArith FunctionalExtensionality.
From Verif Require Import RSum IntegralsModel TensorObjs TensorAlg TensorSpec FockSpec FockArrays FockCcSpec FockTerms FockHam FockExp FockLevel FockCheck FockState FockNear FockProj FockSector FockSectorTools FockSector3 CcsdModel FockDress FockShift FockTools3 CcsdtModel CcsdtUpdate CcsdtReify SdtSpec SdtFock CrccModel CrccReify.
Import ListNotations.
Local Open Scope nat_scope.
(** An expression with the arrays p set to zero, and the rest *)
Fixpoint killp (p : nat -> bool) (e : ex) : ex :=
  match e with
  | EC n d => EC n d
  | ET k ix => if p k then EC 0 1 else e
  | EAdd a b => let a := killp p a in let b := killp p b in if isz a then b else if isz b then a else EAdd a b
  | ESub a b => let a := killp p a in let b := killp p b in if isz b then a else if isz a then EOpp b else ESub a b
  | EOpp a => let a := killp p a in if isz a then EC 0 1 else EOpp a
  | EMul a b => let a := killp p a in let b := killp p b in if isz a then EC 0 1 else if isz b then EC 0 1 else EMul a b
  | EScale n d a => let a := killp p a in if isz a then EC 0 1 else EScale n d a
  | ESum x d a => let a := killp p a in if isz a then EC 0 1 else ESum x d a
  end.
Definition zadd a b := if isz a then b else if isz b then a else EAdd a b.
Definition zmul a b := if isz a then EC 0 1 else if isz b then EC 0 1 else EMul a b.
Fixpoint dif (p : nat -> bool) (e : ex) : ex :=
  match e with
  | EC n d => EC 0 1
  | ET k ix => if p k then e else EC 0 1
  | EAdd a b => zadd (dif p a) (dif p b)
  | ESub a b => let a := dif p a in let b := dif p b in if isz b then a else if isz a then EOpp b else ESub a b
  | EOpp a => let a := dif p a in if isz a then EC 0 1 else EOpp a
  | EMul a b => zadd (zmul (dif p a) b) (zmul (killp p a) (dif p b))
  | EScale n d a => let a := dif p a in if isz a then EC 0 1 else EScale n d a
  | ESum x d a => let a := dif p a in if isz a then EC 0 1 else ESum x d a
  end.
Local Open Scope R_scope.
Lemma killp_ok dim ten ten' p e : (forall k ix, p k = true -> ten' k ix = 0) -> (forall k ix, p k = false -> ten' k ix = ten k ix) -> forall v, den dim ten (killp p e) v = den dim ten' e v.
Proof.
  intros Z E. induction e as [n d|k ix|a IHa b IHb|a IHa b IHb|a IHa|a IHa b IHb|n d a IHa|x d a IHa]; intros v; cbn [killp]; cbv zeta.
  - reflexivity.
  - destruct (p k) eqn:P; [rewrite den_zero|]; cbn [den]; [now rewrite Z|now rewrite E].
  - destruct (isz (killp p a)) eqn:A; [|destruct (isz (killp p b)) eqn:B]; cbn [den]; rewrite <- ?IHa, <- ?IHb; [rewrite (isz_ok dim ten _ v A)|rewrite (isz_ok dim ten _ v B)|]; ring.
  - destruct (isz (killp p b)) eqn:B; [|destruct (isz (killp p a)) eqn:A]; cbn [den]; rewrite <- ?IHa, <- ?IHb; [rewrite (isz_ok dim ten _ v B)|rewrite (isz_ok dim ten _ v A)|]; ring.
  - destruct (isz (killp p a)) eqn:A; [rewrite den_zero|]; cbn [den]; rewrite <- ?IHa; [rewrite (isz_ok dim ten _ v A)|]; ring.
  - destruct (isz (killp p a)) eqn:A; [rewrite den_zero|destruct (isz (killp p b)) eqn:B; [rewrite den_zero|]]; cbn [den]; rewrite <- ?IHa, <- ?IHb; [rewrite (isz_ok dim ten _ v A)|rewrite (isz_ok dim ten _ v B)|]; ring.
  - destruct (isz (killp p a)) eqn:A; [rewrite den_zero|]; cbn [den]; rewrite <- ?IHa; [rewrite (isz_ok dim ten _ v A)|]; ring.
  - destruct (isz (killp p a)) eqn:A; [rewrite den_zero|]; cbn [den]; [symmetry; apply sumn_0|apply sumn_ext]; intros i _; rewrite <- ?IHa; [apply (isz_ok dim ten _ _ A)|reflexivity].
Qed.
Lemma zadd_ok dim ten a b v : den dim ten (zadd a b) v = den dim ten a v + den dim ten b v.
Proof. unfold zadd. destruct (isz a) eqn:A; [rewrite (isz_ok dim ten _ v A); ring|]. destruct (isz b) eqn:B; [rewrite (isz_ok dim ten _ v B); ring|]. reflexivity. Qed.
Lemma zmul_ok dim ten a b v : den dim ten (zmul a b) v = den dim ten a v * den dim ten b v.
Proof. unfold zmul. destruct (isz a) eqn:A; [rewrite den_zero, (isz_ok dim ten _ v A); ring|]. destruct (isz b) eqn:B; [rewrite den_zero, (isz_ok dim ten _ v B); ring|]. reflexivity. Qed.
Lemma dif_ok dim ten p e : forall v, den dim ten (dif p e) v = den dim ten e v - den dim ten (killp p e) v.
Proof.
  set (ten' := fun k ix => if p k then 0 else ten k ix).
  assert (KK : forall e v, den dim ten (killp p e) v = den dim ten' e v) by (intros e0 v0; apply killp_ok; unfold ten'; intros k ix P; now rewrite P).
  induction e as [n d|k ix|a IHa b IHb|a IHa b IHb|a IHa|a IHa b IHb|n d a IHa|x d a IHa]; intros v; rewrite KK; cbn [dif]; cbv zeta.
  - rewrite den_zero. cbn [den]. ring.
  - unfold ten'. cbn [den]. destruct (p k); [cbn [den]|rewrite den_zero]; ring.
  - rewrite zadd_ok, IHa, IHb, !KK. cbn [den]. ring.
  - specialize (IHa v). specialize (IHb v). rewrite KK in IHa, IHb. destruct (isz (dif p b)) eqn:B; [|destruct (isz (dif p a)) eqn:A]; cbn [den]; [rewrite (isz_ok dim ten _ v B) in IHb|rewrite (isz_ok dim ten _ v A) in IHa|]; lra.
  - specialize (IHa v). rewrite KK in IHa. destruct (isz (dif p a)) eqn:A; [rewrite den_zero, (isz_ok dim ten _ v A) in *|]; cbn [den]; lra.
  - rewrite zadd_ok, !zmul_ok, IHa, IHb, !KK. cbn [den]. ring.
  - specialize (IHa v). rewrite KK in IHa. cbn [den]. destruct (isz (dif p a)) eqn:A; [rewrite den_zero, (isz_ok dim ten _ v A) in *; replace (den dim ten a v) with (den dim ten' a v) by lra|cbn [den]; rewrite IHa]; ring.
  - cbn [den]. rewrite <- sumn_minus. destruct (isz (dif p a)) eqn:A; [rewrite den_zero; symmetry; apply sumn_0|cbn [den]; apply sumn_ext]; intros i _; specialize (IHa (upd v x i)); rewrite KK in IHa; [rewrite (isz_ok dim ten _ _ A) in IHa|]; lra.
Qed.
Local Open Scope nat_scope.
Definition no3 (k : nat) : bool := (5 <=? k) && (k <? 9).
Definition no1 (k : nat) : bool := k <? 2.
Definition no13 (k : nat) : bool := (k <? 2) || ((5 <=? k) && (k <? 9)).
Definition crcc_own : list (nat * (nat * list nat * bool)) := [(68, (68, [0; 1; 3; 2], false)); (68, (68, [1; 0; 2; 3], false)); (70, (70, [0; 1; 3; 2], false)); (70, (70, [1; 0; 2; 3], false))].
Definition crcc_gens := fock_gens ++ (sdt_own ++ crcc_own).
Definition crcc_tab := Eval vm_compute in symtab crcc_gens 71.
Lemma crcc_htab : crcc_tab = symtab crcc_gens 71. Proof. vm_compute. reflexivity. Qed.
Local Open Scope R_scope.
(** The part of the triples equations diagonal in the block aaa *)
Definition crdia_aaa (d : dims) (H : ints) (T : amps) : mat6 := fun a b c i j k =>
  sumn (nua d) (fun e => (i_a_vv H a e) * (x_aaa T e b c i j k)) + (-1) / 1 * (sumn (noa d) (fun m => (i_a_oo H m i) * (x_aaa T a b c m j k))) + sumn (nua d) (fun e => (i_a_vv H b e) * (x_aaa T a e c i j k)) + (-1) / 1 * (sumn (noa d) (fun m => (i_a_oo H m j) * (x_aaa T a b c i m k))) + sumn (nua d) (fun e => (i_a_vv H c e) * (x_aaa T a b e i j k)) + (-1) / 1 * (sumn (noa d) (fun m => (i_a_oo H m k) * (x_aaa T a b c i j m))) + 1 / 2 * (sumn (nua d) (fun e => sumn (nua d) (fun f => (i_aa_vvvv H a b e f) * (x_aaa T e f c i j k)))) + 1 / 2 * (sumn (noa d) (fun m => sumn (noa d) (fun n => (i_aa_oooo H m n i j) * (x_aaa T a b c m n k)))) + 1 / 2 * (sumn (nua d) (fun e => sumn (nua d) (fun f => (i_aa_vvvv H a c e f) * (x_aaa T e b f i j k)))) + 1 / 2 * (sumn (noa d) (fun m => sumn (noa d) (fun n => (i_aa_oooo H m n i k) * (x_aaa T a b c m j n)))) + 1 / 2 * (sumn (nua d) (fun e => sumn (nua d) (fun f => (i_aa_vvvv H b c e f) * (x_aaa T a e f i j k)))) + 1 / 2 * (sumn (noa d) (fun m => sumn (noa d) (fun n => (i_aa_oooo H m n j k) * (x_aaa T a b c i m n)))) + sumn (nua d) (fun e => sumn (noa d) (fun m => (i_aa_voov H a m i e) * (x_aaa T e b c m j k))) + sumn (nua d) (fun e => sumn (noa d) (fun m => (i_aa_voov H a m j e) * (x_aaa T e b c i m k))) + sumn (nua d) (fun e => sumn (noa d) (fun m => (i_aa_voov H a m k e) * (x_aaa T e b c i j m))) + sumn (nua d) (fun e => sumn (noa d) (fun m => (i_aa_voov H b m i e) * (x_aaa T a e c m j k))) + sumn (nua d) (fun e => sumn (noa d) (fun m => (i_aa_voov H b m j e) * (x_aaa T a e c i m k))) + sumn (nua d) (fun e => sumn (noa d) (fun m => (i_aa_voov H b m k e) * (x_aaa T a e c i j m))) + sumn (nua d) (fun e => sumn (noa d) (fun m => (i_aa_voov H c m i e) * (x_aaa T a b e m j k))) + sumn (nua d) (fun e => sumn (noa d) (fun m => (i_aa_voov H c m j e) * (x_aaa T a b e i m k))) + sumn (nua d) (fun e => sumn (noa d) (fun m => (i_aa_voov H c m k e) * (x_aaa T a b e i j m))) + (-1) / 2 * (sumn (noa d) (fun m => sumn (noa d) (fun n => sumn (nua d) (fun e => sumn (nua d) (fun f => (i_aa_oovv H m n e f) * (x_aa T a b m i) * (x_aaa T e f c n j k)))))) + (-1) / 2 * (sumn (noa d) (fun m => sumn (noa d) (fun n => sumn (nua d) (fun e => sumn (nua d) (fun f => (i_aa_oovv H m n e f) * (x_aa T e a i j) * (x_aaa T f b c m n k)))))) + (-1) / 2 * (sumn (noa d) (fun m => sumn (noa d) (fun n => sumn (nua d) (fun e => sumn (nua d) (fun f => (i_aa_oovv H m n e f) * (x_aa T a b m j) * (x_aaa T e f c i n k)))))) + (-1) / 2 * (sumn (noa d) (fun m => sumn (noa d) (fun n => sumn (nua d) (fun e => sumn (nua d) (fun f => (i_aa_oovv H m n e f) * (x_aa T e b i j) * (x_aaa T a f c m n k)))))) + (-1) / 2 * (sumn (noa d) (fun m => sumn (noa d) (fun n => sumn (nua d) (fun e => sumn (nua d) (fun f => (i_aa_oovv H m n e f) * (x_aa T a b m k) * (x_aaa T e f c i j n)))))) + (-1) / 2 * (sumn (noa d) (fun m => sumn (noa d) (fun n => sumn (nua d) (fun e => sumn (nua d) (fun f => (i_aa_oovv H m n e f) * (x_aa T e c i j) * (x_aaa T a b f m n k)))))) + (-1) / 2 * (sumn (noa d) (fun m => sumn (noa d) (fun n => sumn (nua d) (fun e => sumn (nua d) (fun f => (i_aa_oovv H m n e f) * (x_aa T a c m i) * (x_aaa T e b f n j k)))))) + (-1) / 2 * (sumn (noa d) (fun m => sumn (noa d) (fun n => sumn (nua d) (fun e => sumn (nua d) (fun f => (i_aa_oovv H m n e f) * (x_aa T e a i k) * (x_aaa T f b c m j n)))))) + (-1) / 2 * (sumn (noa d) (fun m => sumn (noa d) (fun n => sumn (nua d) (fun e => sumn (nua d) (fun f => (i_aa_oovv H m n e f) * (x_aa T a c m j) * (x_aaa T e b f i n k)))))) + (-1) / 2 * (sumn (noa d) (fun m => sumn (noa d) (fun n => sumn (nua d) (fun e => sumn (nua d) (fun f => (i_aa_oovv H m n e f) * (x_aa T e b i k) * (x_aaa T a f c m j n)))))) + (-1) / 2 * (sumn (noa d) (fun m => sumn (noa d) (fun n => sumn (nua d) (fun e => sumn (nua d) (fun f => (i_aa_oovv H m n e f) * (x_aa T a c m k) * (x_aaa T e b f i j n)))))) + (-1) / 2 * (sumn (noa d) (fun m => sumn (noa d) (fun n => sumn (nua d) (fun e => sumn (nua d) (fun f => (i_aa_oovv H m n e f) * (x_aa T e c i k) * (x_aaa T a b f m j n)))))) + (-1) / 2 * (sumn (noa d) (fun m => sumn (noa d) (fun n => sumn (nua d) (fun e => sumn (nua d) (fun f => (i_aa_oovv H m n e f) * (x_aa T b c m i) * (x_aaa T a e f n j k)))))) + (-1) / 2 * (sumn (noa d) (fun m => sumn (noa d) (fun n => sumn (nua d) (fun e => sumn (nua d) (fun f => (i_aa_oovv H m n e f) * (x_aa T e a j k) * (x_aaa T f b c i m n)))))) + (-1) / 2 * (sumn (noa d) (fun m => sumn (noa d) (fun n => sumn (nua d) (fun e => sumn (nua d) (fun f => (i_aa_oovv H m n e f) * (x_aa T b c m j) * (x_aaa T a e f i n k)))))) + (-1) / 2 * (sumn (noa d) (fun m => sumn (noa d) (fun n => sumn (nua d) (fun e => sumn (nua d) (fun f => (i_aa_oovv H m n e f) * (x_aa T e b j k) * (x_aaa T a f c i m n)))))) + (-1) / 2 * (sumn (noa d) (fun m => sumn (noa d) (fun n => sumn (nua d) (fun e => sumn (nua d) (fun f => (i_aa_oovv H m n e f) * (x_aa T b c m k) * (x_aaa T a e f i j n)))))) + (-1) / 2 * (sumn (noa d) (fun m => sumn (noa d) (fun n => sumn (nua d) (fun e => sumn (nua d) (fun f => (i_aa_oovv H m n e f) * (x_aa T e c j k) * (x_aaa T a b f i m n)))))).
(** The part of the triples equations diagonal in the block aab *)
Definition crdia_aab (d : dims) (H : ints) (T : amps) : mat6 := fun a b c i j k =>
  sumn (nua d) (fun e => (i_a_vv H a e) * (x_aab T e b c i j k)) + (-1) / 1 * (sumn (noa d) (fun m => (i_a_oo H m i) * (x_aab T a b c m j k))) + sumn (nua d) (fun e => (i_a_vv H b e) * (x_aab T a e c i j k)) + (-1) / 1 * (sumn (noa d) (fun m => (i_a_oo H m j) * (x_aab T a b c i m k))) + sumn (nub d) (fun e => (i_b_vv H c e) * (x_aab T a b e i j k)) + (-1) / 1 * (sumn (nob d) (fun m => (i_b_oo H m k) * (x_aab T a b c i j m))) + 1 / 2 * (sumn (nua d) (fun e => sumn (nua d) (fun f => (i_aa_vvvv H a b e f) * (x_aab T e f c i j k)))) + 1 / 2 * (sumn (noa d) (fun m => sumn (noa d) (fun n => (i_aa_oooo H m n i j) * (x_aab T a b c m n k)))) + sumn (nua d) (fun e => sumn (nub d) (fun f => (i_ab_vvvv H a c e f) * (x_aab T e b f i j k))) + sumn (noa d) (fun m => sumn (nob d) (fun n => (i_ab_oooo H m n i k) * (x_aab T a b c m j n))) + sumn (nua d) (fun e => sumn (nub d) (fun f => (i_ab_vvvv H b c e f) * (x_aab T a e f i j k))) + sumn (noa d) (fun m => sumn (nob d) (fun n => (i_ab_oooo H m n j k) * (x_aab T a b c i m n))) + sumn (nua d) (fun e => sumn (noa d) (fun m => (i_aa_voov H a m i e) * (x_aab T e b c m j k))) + sumn (nua d) (fun e => sumn (noa d) (fun m => (i_aa_voov H a m j e) * (x_aab T e b c i m k))) + (-1) / 1 * (sumn (nua d) (fun e => sumn (nob d) (fun m => (i_ab_vovo H a m e k) * (x_aab T e b c i j m)))) + sumn (nua d) (fun e => sumn (noa d) (fun m => (i_aa_voov H b m i e) * (x_aab T a e c m j k))) + sumn (nua d) (fun e => sumn (noa d) (fun m => (i_aa_voov H b m j e) * (x_aab T a e c i m k))) + (-1) / 1 * (sumn (nua d) (fun e => sumn (nob d) (fun m => (i_ab_vovo H b m e k) * (x_aab T a e c i j m)))) + (-1) / 1 * (sumn (nub d) (fun e => sumn (noa d) (fun m => (i_ab_ovov H m c i e) * (x_aab T a b e m j k)))) + (-1) / 1 * (sumn (nub d) (fun e => sumn (noa d) (fun m => (i_ab_ovov H m c j e) * (x_aab T a b e i m k)))) + sumn (nub d) (fun e => sumn (nob d) (fun m => (i_bb_voov H c m k e) * (x_aab T a b e i j m))) + (-1) / 2 * (sumn (noa d) (fun m => sumn (noa d) (fun n => sumn (nua d) (fun e => sumn (nua d) (fun f => (i_aa_oovv H m n e f) * (x_aa T a b m i) * (x_aab T e f c n j k)))))) + (-1) / 2 * (sumn (noa d) (fun m => sumn (noa d) (fun n => sumn (nua d) (fun e => sumn (nua d) (fun f => (i_aa_oovv H m n e f) * (x_aa T e a i j) * (x_aab T f b c m n k)))))) + (-1) / 2 * (sumn (noa d) (fun m => sumn (noa d) (fun n => sumn (nua d) (fun e => sumn (nua d) (fun f => (i_aa_oovv H m n e f) * (x_aa T a b m j) * (x_aab T e f c i n k)))))) + (-1) / 2 * (sumn (noa d) (fun m => sumn (noa d) (fun n => sumn (nua d) (fun e => sumn (nua d) (fun f => (i_aa_oovv H m n e f) * (x_aa T e b i j) * (x_aab T a f c m n k)))))) + (-1) / 1 * (sumn (nob d) (fun m => sumn (noa d) (fun n => sumn (nua d) (fun e => sumn (nub d) (fun f => (i_ab_oovv H n m e f) * (x_ab T a c i m) * (x_aab T e b f n j k)))))) + (-1) / 1 * (sumn (noa d) (fun m => sumn (nob d) (fun n => sumn (nub d) (fun e => sumn (nua d) (fun f => (i_ab_oovv H m n f e) * (x_ab T a e i k) * (x_aab T f b c m j n)))))) + (-1) / 1 * (sumn (nob d) (fun m => sumn (noa d) (fun n => sumn (nua d) (fun e => sumn (nub d) (fun f => (i_ab_oovv H n m e f) * (x_ab T a c j m) * (x_aab T e b f i n k)))))) + (-1) / 1 * (sumn (noa d) (fun m => sumn (nob d) (fun n => sumn (nub d) (fun e => sumn (nua d) (fun f => (i_ab_oovv H m n f e) * (x_ab T b e i k) * (x_aab T a f c m j n)))))) + (-1) / 1 * (sumn (noa d) (fun m => sumn (nob d) (fun n => sumn (nua d) (fun e => sumn (nub d) (fun f => (i_ab_oovv H m n e f) * (x_ab T a c m k) * (x_aab T e b f i j n)))))) + (-1) / 1 * (sumn (noa d) (fun m => sumn (nob d) (fun n => sumn (nua d) (fun e => sumn (nub d) (fun f => (i_ab_oovv H m n e f) * (x_ab T e c i k) * (x_aab T a b f m j n)))))) + (-1) / 1 * (sumn (nob d) (fun m => sumn (noa d) (fun n => sumn (nua d) (fun e => sumn (nub d) (fun f => (i_ab_oovv H n m e f) * (x_ab T b c i m) * (x_aab T a e f n j k)))))) + (-1) / 1 * (sumn (noa d) (fun m => sumn (nob d) (fun n => sumn (nub d) (fun e => sumn (nua d) (fun f => (i_ab_oovv H m n f e) * (x_ab T a e j k) * (x_aab T f b c i m n)))))) + (-1) / 1 * (sumn (nob d) (fun m => sumn (noa d) (fun n => sumn (nua d) (fun e => sumn (nub d) (fun f => (i_ab_oovv H n m e f) * (x_ab T b c j m) * (x_aab T a e f i n k)))))) + (-1) / 1 * (sumn (noa d) (fun m => sumn (nob d) (fun n => sumn (nub d) (fun e => sumn (nua d) (fun f => (i_ab_oovv H m n f e) * (x_ab T b e j k) * (x_aab T a f c i m n)))))) + (-1) / 1 * (sumn (noa d) (fun m => sumn (nob d) (fun n => sumn (nua d) (fun e => sumn (nub d) (fun f => (i_ab_oovv H m n e f) * (x_ab T b c m k) * (x_aab T a e f i j n)))))) + (-1) / 1 * (sumn (noa d) (fun m => sumn (nob d) (fun n => sumn (nua d) (fun e => sumn (nub d) (fun f => (i_ab_oovv H m n e f) * (x_ab T e c j k) * (x_aab T a b f i m n)))))).
(** The part of the triples equations diagonal in the block abb *)
Definition crdia_abb (d : dims) (H : ints) (T : amps) : mat6 := fun a b c i j k =>
  sumn (nua d) (fun e => (i_a_vv H a e) * (x_abb T e b c i j k)) + (-1) / 1 * (sumn (noa d) (fun m => (i_a_oo H m i) * (x_abb T a b c m j k))) + sumn (nub d) (fun e => (i_b_vv H b e) * (x_abb T a e c i j k)) + (-1) / 1 * (sumn (nob d) (fun m => (i_b_oo H m j) * (x_abb T a b c i m k))) + sumn (nub d) (fun e => (i_b_vv H c e) * (x_abb T a b e i j k)) + (-1) / 1 * (sumn (nob d) (fun m => (i_b_oo H m k) * (x_abb T a b c i j m))) + sumn (nua d) (fun e => sumn (nub d) (fun f => (i_ab_vvvv H a b e f) * (x_abb T e f c i j k))) + sumn (noa d) (fun m => sumn (nob d) (fun n => (i_ab_oooo H m n i j) * (x_abb T a b c m n k))) + sumn (nua d) (fun e => sumn (nub d) (fun f => (i_ab_vvvv H a c e f) * (x_abb T e b f i j k))) + sumn (noa d) (fun m => sumn (nob d) (fun n => (i_ab_oooo H m n i k) * (x_abb T a b c m j n))) + 1 / 2 * (sumn (nub d) (fun e => sumn (nub d) (fun f => (i_bb_vvvv H b c e f) * (x_abb T a e f i j k)))) + 1 / 2 * (sumn (nob d) (fun m => sumn (nob d) (fun n => (i_bb_oooo H m n j k) * (x_abb T a b c i m n)))) + sumn (nua d) (fun e => sumn (noa d) (fun m => (i_aa_voov H a m i e) * (x_abb T e b c m j k))) + (-1) / 1 * (sumn (nua d) (fun e => sumn (nob d) (fun m => (i_ab_vovo H a m e j) * (x_abb T e b c i m k)))) + (-1) / 1 * (sumn (nua d) (fun e => sumn (nob d) (fun m => (i_ab_vovo H a m e k) * (x_abb T e b c i j m)))) + (-1) / 1 * (sumn (nub d) (fun e => sumn (noa d) (fun m => (i_ab_ovov H m b i e) * (x_abb T a e c m j k)))) + sumn (nub d) (fun e => sumn (nob d) (fun m => (i_bb_voov H b m j e) * (x_abb T a e c i m k))) + sumn (nub d) (fun e => sumn (nob d) (fun m => (i_bb_voov H b m k e) * (x_abb T a e c i j m))) + (-1) / 1 * (sumn (nub d) (fun e => sumn (noa d) (fun m => (i_ab_ovov H m c i e) * (x_abb T a b e m j k)))) + sumn (nub d) (fun e => sumn (nob d) (fun m => (i_bb_voov H c m j e) * (x_abb T a b e i m k))) + sumn (nub d) (fun e => sumn (nob d) (fun m => (i_bb_voov H c m k e) * (x_abb T a b e i j m))) + (-1) / 1 * (sumn (nob d) (fun m => sumn (noa d) (fun n => sumn (nua d) (fun e => sumn (nub d) (fun f => (i_ab_oovv H n m e f) * (x_ab T a b i m) * (x_abb T e f c n j k)))))) + (-1) / 1 * (sumn (noa d) (fun m => sumn (nob d) (fun n => sumn (nub d) (fun e => sumn (nua d) (fun f => (i_ab_oovv H m n f e) * (x_ab T a e i j) * (x_abb T f b c m n k)))))) + (-1) / 1 * (sumn (noa d) (fun m => sumn (nob d) (fun n => sumn (nua d) (fun e => sumn (nub d) (fun f => (i_ab_oovv H m n e f) * (x_ab T a b m j) * (x_abb T e f c i n k)))))) + (-1) / 1 * (sumn (noa d) (fun m => sumn (nob d) (fun n => sumn (nua d) (fun e => sumn (nub d) (fun f => (i_ab_oovv H m n e f) * (x_ab T e b i j) * (x_abb T a f c m n k)))))) + (-1) / 1 * (sumn (noa d) (fun m => sumn (nob d) (fun n => sumn (nua d) (fun e => sumn (nub d) (fun f => (i_ab_oovv H m n e f) * (x_ab T a b m k) * (x_abb T e f c i j n)))))) + (-1) / 1 * (sumn (noa d) (fun m => sumn (nob d) (fun n => sumn (nua d) (fun e => sumn (nub d) (fun f => (i_ab_oovv H m n e f) * (x_ab T e c i j) * (x_abb T a b f m n k)))))) + (-1) / 1 * (sumn (nob d) (fun m => sumn (noa d) (fun n => sumn (nua d) (fun e => sumn (nub d) (fun f => (i_ab_oovv H n m e f) * (x_ab T a c i m) * (x_abb T e b f n j k)))))) + (-1) / 1 * (sumn (noa d) (fun m => sumn (nob d) (fun n => sumn (nub d) (fun e => sumn (nua d) (fun f => (i_ab_oovv H m n f e) * (x_ab T a e i k) * (x_abb T f b c m j n)))))) + (-1) / 1 * (sumn (noa d) (fun m => sumn (nob d) (fun n => sumn (nua d) (fun e => sumn (nub d) (fun f => (i_ab_oovv H m n e f) * (x_ab T a c m j) * (x_abb T e b f i n k)))))) + (-1) / 1 * (sumn (noa d) (fun m => sumn (nob d) (fun n => sumn (nua d) (fun e => sumn (nub d) (fun f => (i_ab_oovv H m n e f) * (x_ab T e b i k) * (x_abb T a f c m j n)))))) + (-1) / 1 * (sumn (noa d) (fun m => sumn (nob d) (fun n => sumn (nua d) (fun e => sumn (nub d) (fun f => (i_ab_oovv H m n e f) * (x_ab T a c m k) * (x_abb T e b f i j n)))))) + (-1) / 1 * (sumn (noa d) (fun m => sumn (nob d) (fun n => sumn (nua d) (fun e => sumn (nub d) (fun f => (i_ab_oovv H m n e f) * (x_ab T e c i k) * (x_abb T a b f m j n)))))) + (-1) / 2 * (sumn (nob d) (fun m => sumn (nob d) (fun n => sumn (nub d) (fun e => sumn (nub d) (fun f => (i_bb_oovv H m n e f) * (x_bb T b c m j) * (x_abb T a e f i n k)))))) + (-1) / 2 * (sumn (nob d) (fun m => sumn (nob d) (fun n => sumn (nub d) (fun e => sumn (nub d) (fun f => (i_bb_oovv H m n e f) * (x_bb T e b j k) * (x_abb T a f c i m n)))))) + (-1) / 2 * (sumn (nob d) (fun m => sumn (nob d) (fun n => sumn (nub d) (fun e => sumn (nub d) (fun f => (i_bb_oovv H m n e f) * (x_bb T b c m k) * (x_abb T a e f i j n)))))) + (-1) / 2 * (sumn (nob d) (fun m => sumn (nob d) (fun n => sumn (nub d) (fun e => sumn (nub d) (fun f => (i_bb_oovv H m n e f) * (x_bb T e c j k) * (x_abb T a b f i m n)))))).
(** The part of the triples equations diagonal in the block bbb *)
Definition crdia_bbb (d : dims) (H : ints) (T : amps) : mat6 := fun a b c i j k =>
  sumn (nub d) (fun e => (i_b_vv H a e) * (x_bbb T e b c i j k)) + (-1) / 1 * (sumn (nob d) (fun m => (i_b_oo H m i) * (x_bbb T a b c m j k))) + sumn (nub d) (fun e => (i_b_vv H b e) * (x_bbb T a e c i j k)) + (-1) / 1 * (sumn (nob d) (fun m => (i_b_oo H m j) * (x_bbb T a b c i m k))) + sumn (nub d) (fun e => (i_b_vv H c e) * (x_bbb T a b e i j k)) + (-1) / 1 * (sumn (nob d) (fun m => (i_b_oo H m k) * (x_bbb T a b c i j m))) + 1 / 2 * (sumn (nub d) (fun e => sumn (nub d) (fun f => (i_bb_vvvv H a b e f) * (x_bbb T e f c i j k)))) + 1 / 2 * (sumn (nob d) (fun m => sumn (nob d) (fun n => (i_bb_oooo H m n i j) * (x_bbb T a b c m n k)))) + 1 / 2 * (sumn (nub d) (fun e => sumn (nub d) (fun f => (i_bb_vvvv H a c e f) * (x_bbb T e b f i j k)))) + 1 / 2 * (sumn (nob d) (fun m => sumn (nob d) (fun n => (i_bb_oooo H m n i k) * (x_bbb T a b c m j n)))) + 1 / 2 * (sumn (nub d) (fun e => sumn (nub d) (fun f => (i_bb_vvvv H b c e f) * (x_bbb T a e f i j k)))) + 1 / 2 * (sumn (nob d) (fun m => sumn (nob d) (fun n => (i_bb_oooo H m n j k) * (x_bbb T a b c i m n)))) + sumn (nub d) (fun e => sumn (nob d) (fun m => (i_bb_voov H a m i e) * (x_bbb T e b c m j k))) + sumn (nub d) (fun e => sumn (nob d) (fun m => (i_bb_voov H a m j e) * (x_bbb T e b c i m k))) + sumn (nub d) (fun e => sumn (nob d) (fun m => (i_bb_voov H a m k e) * (x_bbb T e b c i j m))) + sumn (nub d) (fun e => sumn (nob d) (fun m => (i_bb_voov H b m i e) * (x_bbb T a e c m j k))) + sumn (nub d) (fun e => sumn (nob d) (fun m => (i_bb_voov H b m j e) * (x_bbb T a e c i m k))) + sumn (nub d) (fun e => sumn (nob d) (fun m => (i_bb_voov H b m k e) * (x_bbb T a e c i j m))) + sumn (nub d) (fun e => sumn (nob d) (fun m => (i_bb_voov H c m i e) * (x_bbb T a b e m j k))) + sumn (nub d) (fun e => sumn (nob d) (fun m => (i_bb_voov H c m j e) * (x_bbb T a b e i m k))) + sumn (nub d) (fun e => sumn (nob d) (fun m => (i_bb_voov H c m k e) * (x_bbb T a b e i j m))) + (-1) / 2 * (sumn (nob d) (fun m => sumn (nob d) (fun n => sumn (nub d) (fun e => sumn (nub d) (fun f => (i_bb_oovv H m n e f) * (x_bb T a b m i) * (x_bbb T e f c n j k)))))) + (-1) / 2 * (sumn (nob d) (fun m => sumn (nob d) (fun n => sumn (nub d) (fun e => sumn (nub d) (fun f => (i_bb_oovv H m n e f) * (x_bb T e a i j) * (x_bbb T f b c m n k)))))) + (-1) / 2 * (sumn (nob d) (fun m => sumn (nob d) (fun n => sumn (nub d) (fun e => sumn (nub d) (fun f => (i_bb_oovv H m n e f) * (x_bb T a b m j) * (x_bbb T e f c i n k)))))) + (-1) / 2 * (sumn (nob d) (fun m => sumn (nob d) (fun n => sumn (nub d) (fun e => sumn (nub d) (fun f => (i_bb_oovv H m n e f) * (x_bb T e b i j) * (x_bbb T a f c m n k)))))) + (-1) / 2 * (sumn (nob d) (fun m => sumn (nob d) (fun n => sumn (nub d) (fun e => sumn (nub d) (fun f => (i_bb_oovv H m n e f) * (x_bb T a b m k) * (x_bbb T e f c i j n)))))) + (-1) / 2 * (sumn (nob d) (fun m => sumn (nob d) (fun n => sumn (nub d) (fun e => sumn (nub d) (fun f => (i_bb_oovv H m n e f) * (x_bb T e c i j) * (x_bbb T a b f m n k)))))) + (-1) / 2 * (sumn (nob d) (fun m => sumn (nob d) (fun n => sumn (nub d) (fun e => sumn (nub d) (fun f => (i_bb_oovv H m n e f) * (x_bb T a c m i) * (x_bbb T e b f n j k)))))) + (-1) / 2 * (sumn (nob d) (fun m => sumn (nob d) (fun n => sumn (nub d) (fun e => sumn (nub d) (fun f => (i_bb_oovv H m n e f) * (x_bb T e a i k) * (x_bbb T f b c m j n)))))) + (-1) / 2 * (sumn (nob d) (fun m => sumn (nob d) (fun n => sumn (nub d) (fun e => sumn (nub d) (fun f => (i_bb_oovv H m n e f) * (x_bb T a c m j) * (x_bbb T e b f i n k)))))) + (-1) / 2 * (sumn (nob d) (fun m => sumn (nob d) (fun n => sumn (nub d) (fun e => sumn (nub d) (fun f => (i_bb_oovv H m n e f) * (x_bb T e b i k) * (x_bbb T a f c m j n)))))) + (-1) / 2 * (sumn (nob d) (fun m => sumn (nob d) (fun n => sumn (nub d) (fun e => sumn (nub d) (fun f => (i_bb_oovv H m n e f) * (x_bb T a c m k) * (x_bbb T e b f i j n)))))) + (-1) / 2 * (sumn (nob d) (fun m => sumn (nob d) (fun n => sumn (nub d) (fun e => sumn (nub d) (fun f => (i_bb_oovv H m n e f) * (x_bb T e c i k) * (x_bbb T a b f m j n)))))) + (-1) / 2 * (sumn (nob d) (fun m => sumn (nob d) (fun n => sumn (nub d) (fun e => sumn (nub d) (fun f => (i_bb_oovv H m n e f) * (x_bb T b c m i) * (x_bbb T a e f n j k)))))) + (-1) / 2 * (sumn (nob d) (fun m => sumn (nob d) (fun n => sumn (nub d) (fun e => sumn (nub d) (fun f => (i_bb_oovv H m n e f) * (x_bb T e a j k) * (x_bbb T f b c i m n)))))) + (-1) / 2 * (sumn (nob d) (fun m => sumn (nob d) (fun n => sumn (nub d) (fun e => sumn (nub d) (fun f => (i_bb_oovv H m n e f) * (x_bb T b c m j) * (x_bbb T a e f i n k)))))) + (-1) / 2 * (sumn (nob d) (fun m => sumn (nob d) (fun n => sumn (nub d) (fun e => sumn (nub d) (fun f => (i_bb_oovv H m n e f) * (x_bb T e b j k) * (x_bbb T a f c i m n)))))) + (-1) / 2 * (sumn (nob d) (fun m => sumn (nob d) (fun n => sumn (nub d) (fun e => sumn (nub d) (fun f => (i_bb_oovv H m n e f) * (x_bb T b c m k) * (x_bbb T a e f i j n)))))) + (-1) / 2 * (sumn (nob d) (fun m => sumn (nob d) (fun n => sumn (nub d) (fun e => sumn (nub d) (fun f => (i_bb_oovv H m n e f) * (x_bb T e c j k) * (x_bbb T a b f i m n)))))).
Local Open Scope nat_scope.
Definition k_crdia_aaa (z a b c i j k : nat) : ex := (EAdd (EAdd (EAdd (EAdd (EAdd (EAdd (EAdd (EAdd (EAdd (EAdd (EAdd (EAdd (EAdd (EAdd (EAdd (EAdd (EAdd (EAdd (EAdd (EAdd (EAdd (EAdd (EAdd (EAdd (EAdd (EAdd (EAdd (EAdd (EAdd (EAdd (EAdd (EAdd (EAdd (EAdd (EAdd (EAdd (EAdd (EAdd (ESum (0 + z) 1 (EMul (k_hb_H_a_vv (1 + z) a (0 + z)) (ET 5 [(0 + z); b; c; i; j; k]))) (EScale (-1) 1 (ESum (0 + z) 0 (EMul (k_hb_H_a_oo (1 + z) (0 + z) i) (ET 5 [a; b; c; (0 + z); j; k]))))) (ESum (0 + z) 1 (EMul (k_hb_H_a_vv (1 + z) b (0 + z)) (ET 5 [a; (0 + z); c; i; j; k])))) (EScale (-1) 1 (ESum (0 + z) 0 (EMul (k_hb_H_a_oo (1 + z) (0 + z) j) (ET 5 [a; b; c; i; (0 + z); k]))))) (ESum (0 + z) 1 (EMul (k_hb_H_a_vv (1 + z) c (0 + z)) (ET 5 [a; b; (0 + z); i; j; k])))) (EScale (-1) 1 (ESum (0 + z) 0 (EMul (k_hb_H_a_oo (1 + z) (0 + z) k) (ET 5 [a; b; c; i; j; (0 + z)]))))) (EScale (1) 2 (ESum (0 + z) 1 (ESum (1 + z) 1 (EMul (k_hb_H_aa_vvvv_1 (2 + z) a b (0 + z) (1 + z)) (ET 5 [(0 + z); (1 + z); c; i; j; k])))))) (EScale (1) 2 (ESum (0 + z) 0 (ESum (1 + z) 0 (EMul (k_hb_H_aa_oooo_1 (2 + z) (0 + z) (1 + z) i j) (ET 5 [a; b; c; (0 + z); (1 + z); k])))))) (EScale (1) 2 (ESum (0 + z) 1 (ESum (1 + z) 1 (EMul (k_hb_H_aa_vvvv_1 (2 + z) a c (0 + z) (1 + z)) (ET 5 [(0 + z); b; (1 + z); i; j; k])))))) (EScale (1) 2 (ESum (0 + z) 0 (ESum (1 + z) 0 (EMul (k_hb_H_aa_oooo_1 (2 + z) (0 + z) (1 + z) i k) (ET 5 [a; b; c; (0 + z); j; (1 + z)])))))) (EScale (1) 2 (ESum (0 + z) 1 (ESum (1 + z) 1 (EMul (k_hb_H_aa_vvvv_1 (2 + z) b c (0 + z) (1 + z)) (ET 5 [a; (0 + z); (1 + z); i; j; k])))))) (EScale (1) 2 (ESum (0 + z) 0 (ESum (1 + z) 0 (EMul (k_hb_H_aa_oooo_1 (2 + z) (0 + z) (1 + z) j k) (ET 5 [a; b; c; i; (0 + z); (1 + z)])))))) (ESum (0 + z) 1 (ESum (1 + z) 0 (EMul (k_hb_H_aa_voov (2 + z) a (1 + z) i (0 + z)) (ET 5 [(0 + z); b; c; (1 + z); j; k]))))) (ESum (0 + z) 1 (ESum (1 + z) 0 (EMul (k_hb_H_aa_voov (2 + z) a (1 + z) j (0 + z)) (ET 5 [(0 + z); b; c; i; (1 + z); k]))))) (ESum (0 + z) 1 (ESum (1 + z) 0 (EMul (k_hb_H_aa_voov (2 + z) a (1 + z) k (0 + z)) (ET 5 [(0 + z); b; c; i; j; (1 + z)]))))) (ESum (0 + z) 1 (ESum (1 + z) 0 (EMul (k_hb_H_aa_voov (2 + z) b (1 + z) i (0 + z)) (ET 5 [a; (0 + z); c; (1 + z); j; k]))))) (ESum (0 + z) 1 (ESum (1 + z) 0 (EMul (k_hb_H_aa_voov (2 + z) b (1 + z) j (0 + z)) (ET 5 [a; (0 + z); c; i; (1 + z); k]))))) (ESum (0 + z) 1 (ESum (1 + z) 0 (EMul (k_hb_H_aa_voov (2 + z) b (1 + z) k (0 + z)) (ET 5 [a; (0 + z); c; i; j; (1 + z)]))))) (ESum (0 + z) 1 (ESum (1 + z) 0 (EMul (k_hb_H_aa_voov (2 + z) c (1 + z) i (0 + z)) (ET 5 [a; b; (0 + z); (1 + z); j; k]))))) (ESum (0 + z) 1 (ESum (1 + z) 0 (EMul (k_hb_H_aa_voov (2 + z) c (1 + z) j (0 + z)) (ET 5 [a; b; (0 + z); i; (1 + z); k]))))) (ESum (0 + z) 1 (ESum (1 + z) 0 (EMul (k_hb_H_aa_voov (2 + z) c (1 + z) k (0 + z)) (ET 5 [a; b; (0 + z); i; j; (1 + z)]))))) (EScale (-1) 2 (ESum (0 + z) 0 (ESum (1 + z) 0 (ESum (2 + z) 1 (ESum (3 + z) 1 (EMul (EMul (ET 20 [(0 + z); (1 + z); (2 + z); (3 + z)]) (ET 2 [a; b; (0 + z); i])) (ET 5 [(2 + z); (3 + z); c; (1 + z); j; k])))))))) (EScale (-1) 2 (ESum (0 + z) 0 (ESum (1 + z) 0 (ESum (2 + z) 1 (ESum (3 + z) 1 (EMul (EMul (ET 20 [(0 + z); (1 + z); (2 + z); (3 + z)]) (ET 2 [(2 + z); a; i; j])) (ET 5 [(3 + z); b; c; (0 + z); (1 + z); k])))))))) (EScale (-1) 2 (ESum (0 + z) 0 (ESum (1 + z) 0 (ESum (2 + z) 1 (ESum (3 + z) 1 (EMul (EMul (ET 20 [(0 + z); (1 + z); (2 + z); (3 + z)]) (ET 2 [a; b; (0 + z); j])) (ET 5 [(2 + z); (3 + z); c; i; (1 + z); k])))))))) (EScale (-1) 2 (ESum (0 + z) 0 (ESum (1 + z) 0 (ESum (2 + z) 1 (ESum (3 + z) 1 (EMul (EMul (ET 20 [(0 + z); (1 + z); (2 + z); (3 + z)]) (ET 2 [(2 + z); b; i; j])) (ET 5 [a; (3 + z); c; (0 + z); (1 + z); k])))))))) (EScale (-1) 2 (ESum (0 + z) 0 (ESum (1 + z) 0 (ESum (2 + z) 1 (ESum (3 + z) 1 (EMul (EMul (ET 20 [(0 + z); (1 + z); (2 + z); (3 + z)]) (ET 2 [a; b; (0 + z); k])) (ET 5 [(2 + z); (3 + z); c; i; j; (1 + z)])))))))) (EScale (-1) 2 (ESum (0 + z) 0 (ESum (1 + z) 0 (ESum (2 + z) 1 (ESum (3 + z) 1 (EMul (EMul (ET 20 [(0 + z); (1 + z); (2 + z); (3 + z)]) (ET 2 [(2 + z); c; i; j])) (ET 5 [a; b; (3 + z); (0 + z); (1 + z); k])))))))) (EScale (-1) 2 (ESum (0 + z) 0 (ESum (1 + z) 0 (ESum (2 + z) 1 (ESum (3 + z) 1 (EMul (EMul (ET 20 [(0 + z); (1 + z); (2 + z); (3 + z)]) (ET 2 [a; c; (0 + z); i])) (ET 5 [(2 + z); b; (3 + z); (1 + z); j; k])))))))) (EScale (-1) 2 (ESum (0 + z) 0 (ESum (1 + z) 0 (ESum (2 + z) 1 (ESum (3 + z) 1 (EMul (EMul (ET 20 [(0 + z); (1 + z); (2 + z); (3 + z)]) (ET 2 [(2 + z); a; i; k])) (ET 5 [(3 + z); b; c; (0 + z); j; (1 + z)])))))))) (EScale (-1) 2 (ESum (0 + z) 0 (ESum (1 + z) 0 (ESum (2 + z) 1 (ESum (3 + z) 1 (EMul (EMul (ET 20 [(0 + z); (1 + z); (2 + z); (3 + z)]) (ET 2 [a; c; (0 + z); j])) (ET 5 [(2 + z); b; (3 + z); i; (1 + z); k])))))))) (EScale (-1) 2 (ESum (0 + z) 0 (ESum (1 + z) 0 (ESum (2 + z) 1 (ESum (3 + z) 1 (EMul (EMul (ET 20 [(0 + z); (1 + z); (2 + z); (3 + z)]) (ET 2 [(2 + z); b; i; k])) (ET 5 [a; (3 + z); c; (0 + z); j; (1 + z)])))))))) (EScale (-1) 2 (ESum (0 + z) 0 (ESum (1 + z) 0 (ESum (2 + z) 1 (ESum (3 + z) 1 (EMul (EMul (ET 20 [(0 + z); (1 + z); (2 + z); (3 + z)]) (ET 2 [a; c; (0 + z); k])) (ET 5 [(2 + z); b; (3 + z); i; j; (1 + z)])))))))) (EScale (-1) 2 (ESum (0 + z) 0 (ESum (1 + z) 0 (ESum (2 + z) 1 (ESum (3 + z) 1 (EMul (EMul (ET 20 [(0 + z); (1 + z); (2 + z); (3 + z)]) (ET 2 [(2 + z); c; i; k])) (ET 5 [a; b; (3 + z); (0 + z); j; (1 + z)])))))))) (EScale (-1) 2 (ESum (0 + z) 0 (ESum (1 + z) 0 (ESum (2 + z) 1 (ESum (3 + z) 1 (EMul (EMul (ET 20 [(0 + z); (1 + z); (2 + z); (3 + z)]) (ET 2 [b; c; (0 + z); i])) (ET 5 [a; (2 + z); (3 + z); (1 + z); j; k])))))))) (EScale (-1) 2 (ESum (0 + z) 0 (ESum (1 + z) 0 (ESum (2 + z) 1 (ESum (3 + z) 1 (EMul (EMul (ET 20 [(0 + z); (1 + z); (2 + z); (3 + z)]) (ET 2 [(2 + z); a; j; k])) (ET 5 [(3 + z); b; c; i; (0 + z); (1 + z)])))))))) (EScale (-1) 2 (ESum (0 + z) 0 (ESum (1 + z) 0 (ESum (2 + z) 1 (ESum (3 + z) 1 (EMul (EMul (ET 20 [(0 + z); (1 + z); (2 + z); (3 + z)]) (ET 2 [b; c; (0 + z); j])) (ET 5 [a; (2 + z); (3 + z); i; (1 + z); k])))))))) (EScale (-1) 2 (ESum (0 + z) 0 (ESum (1 + z) 0 (ESum (2 + z) 1 (ESum (3 + z) 1 (EMul (EMul (ET 20 [(0 + z); (1 + z); (2 + z); (3 + z)]) (ET 2 [(2 + z); b; j; k])) (ET 5 [a; (3 + z); c; i; (0 + z); (1 + z)])))))))) (EScale (-1) 2 (ESum (0 + z) 0 (ESum (1 + z) 0 (ESum (2 + z) 1 (ESum (3 + z) 1 (EMul (EMul (ET 20 [(0 + z); (1 + z); (2 + z); (3 + z)]) (ET 2 [b; c; (0 + z); k])) (ET 5 [a; (2 + z); (3 + z); i; j; (1 + z)])))))))) (EScale (-1) 2 (ESum (0 + z) 0 (ESum (1 + z) 0 (ESum (2 + z) 1 (ESum (3 + z) 1 (EMul (EMul (ET 20 [(0 + z); (1 + z); (2 + z); (3 + z)]) (ET 2 [(2 + z); c; j; k])) (ET 5 [a; b; (3 + z); i; (0 + z); (1 + z)])))))))).
Definition k_crdia_aab (z a b c i j k : nat) : ex := (EAdd (EAdd (EAdd (EAdd (EAdd (EAdd (EAdd (EAdd (EAdd (EAdd (EAdd (EAdd (EAdd (EAdd (EAdd (EAdd (EAdd (EAdd (EAdd (EAdd (EAdd (EAdd (EAdd (EAdd (EAdd (EAdd (EAdd (EAdd (EAdd (EAdd (EAdd (EAdd (EAdd (EAdd (EAdd (EAdd (ESum (0 + z) 1 (EMul (k_hb_H_a_vv (1 + z) a (0 + z)) (ET 6 [(0 + z); b; c; i; j; k]))) (EScale (-1) 1 (ESum (0 + z) 0 (EMul (k_hb_H_a_oo (1 + z) (0 + z) i) (ET 6 [a; b; c; (0 + z); j; k]))))) (ESum (0 + z) 1 (EMul (k_hb_H_a_vv (1 + z) b (0 + z)) (ET 6 [a; (0 + z); c; i; j; k])))) (EScale (-1) 1 (ESum (0 + z) 0 (EMul (k_hb_H_a_oo (1 + z) (0 + z) j) (ET 6 [a; b; c; i; (0 + z); k]))))) (ESum (0 + z) 3 (EMul (k_hb_H_b_vv (1 + z) c (0 + z)) (ET 6 [a; b; (0 + z); i; j; k])))) (EScale (-1) 1 (ESum (0 + z) 2 (EMul (k_hb_H_b_oo (1 + z) (0 + z) k) (ET 6 [a; b; c; i; j; (0 + z)]))))) (EScale (1) 2 (ESum (0 + z) 1 (ESum (1 + z) 1 (EMul (k_hb_H_aa_vvvv_1 (2 + z) a b (0 + z) (1 + z)) (ET 6 [(0 + z); (1 + z); c; i; j; k])))))) (EScale (1) 2 (ESum (0 + z) 0 (ESum (1 + z) 0 (EMul (k_hb_H_aa_oooo_1 (2 + z) (0 + z) (1 + z) i j) (ET 6 [a; b; c; (0 + z); (1 + z); k])))))) (ESum (0 + z) 1 (ESum (1 + z) 3 (EMul (k_hb_H_ab_vvvv (2 + z) a c (0 + z) (1 + z)) (ET 6 [(0 + z); b; (1 + z); i; j; k]))))) (ESum (0 + z) 0 (ESum (1 + z) 2 (EMul (k_hb_H_ab_oooo (2 + z) (0 + z) (1 + z) i k) (ET 6 [a; b; c; (0 + z); j; (1 + z)]))))) (ESum (0 + z) 1 (ESum (1 + z) 3 (EMul (k_hb_H_ab_vvvv (2 + z) b c (0 + z) (1 + z)) (ET 6 [a; (0 + z); (1 + z); i; j; k]))))) (ESum (0 + z) 0 (ESum (1 + z) 2 (EMul (k_hb_H_ab_oooo (2 + z) (0 + z) (1 + z) j k) (ET 6 [a; b; c; i; (0 + z); (1 + z)]))))) (ESum (0 + z) 1 (ESum (1 + z) 0 (EMul (k_hb_H_aa_voov (2 + z) a (1 + z) i (0 + z)) (ET 6 [(0 + z); b; c; (1 + z); j; k]))))) (ESum (0 + z) 1 (ESum (1 + z) 0 (EMul (k_hb_H_aa_voov (2 + z) a (1 + z) j (0 + z)) (ET 6 [(0 + z); b; c; i; (1 + z); k]))))) (EScale (-1) 1 (ESum (0 + z) 1 (ESum (1 + z) 2 (EMul (k_hb_H_ab_vovo (2 + z) a (1 + z) (0 + z) k) (ET 6 [(0 + z); b; c; i; j; (1 + z)])))))) (ESum (0 + z) 1 (ESum (1 + z) 0 (EMul (k_hb_H_aa_voov (2 + z) b (1 + z) i (0 + z)) (ET 6 [a; (0 + z); c; (1 + z); j; k]))))) (ESum (0 + z) 1 (ESum (1 + z) 0 (EMul (k_hb_H_aa_voov (2 + z) b (1 + z) j (0 + z)) (ET 6 [a; (0 + z); c; i; (1 + z); k]))))) (EScale (-1) 1 (ESum (0 + z) 1 (ESum (1 + z) 2 (EMul (k_hb_H_ab_vovo (2 + z) b (1 + z) (0 + z) k) (ET 6 [a; (0 + z); c; i; j; (1 + z)])))))) (EScale (-1) 1 (ESum (0 + z) 3 (ESum (1 + z) 0 (EMul (k_hb_H_ab_ovov (2 + z) (1 + z) c i (0 + z)) (ET 6 [a; b; (0 + z); (1 + z); j; k])))))) (EScale (-1) 1 (ESum (0 + z) 3 (ESum (1 + z) 0 (EMul (k_hb_H_ab_ovov (2 + z) (1 + z) c j (0 + z)) (ET 6 [a; b; (0 + z); i; (1 + z); k])))))) (ESum (0 + z) 3 (ESum (1 + z) 2 (EMul (k_hb_H_bb_voov (2 + z) c (1 + z) k (0 + z)) (ET 6 [a; b; (0 + z); i; j; (1 + z)]))))) (EScale (-1) 2 (ESum (0 + z) 0 (ESum (1 + z) 0 (ESum (2 + z) 1 (ESum (3 + z) 1 (EMul (EMul (ET 20 [(0 + z); (1 + z); (2 + z); (3 + z)]) (ET 2 [a; b; (0 + z); i])) (ET 6 [(2 + z); (3 + z); c; (1 + z); j; k])))))))) (EScale (-1) 2 (ESum (0 + z) 0 (ESum (1 + z) 0 (ESum (2 + z) 1 (ESum (3 + z) 1 (EMul (EMul (ET 20 [(0 + z); (1 + z); (2 + z); (3 + z)]) (ET 2 [(2 + z); a; i; j])) (ET 6 [(3 + z); b; c; (0 + z); (1 + z); k])))))))) (EScale (-1) 2 (ESum (0 + z) 0 (ESum (1 + z) 0 (ESum (2 + z) 1 (ESum (3 + z) 1 (EMul (EMul (ET 20 [(0 + z); (1 + z); (2 + z); (3 + z)]) (ET 2 [a; b; (0 + z); j])) (ET 6 [(2 + z); (3 + z); c; i; (1 + z); k])))))))) (EScale (-1) 2 (ESum (0 + z) 0 (ESum (1 + z) 0 (ESum (2 + z) 1 (ESum (3 + z) 1 (EMul (EMul (ET 20 [(0 + z); (1 + z); (2 + z); (3 + z)]) (ET 2 [(2 + z); b; i; j])) (ET 6 [a; (3 + z); c; (0 + z); (1 + z); k])))))))) (EScale (-1) 1 (ESum (0 + z) 2 (ESum (1 + z) 0 (ESum (2 + z) 1 (ESum (3 + z) 3 (EMul (EMul (ET 36 [(1 + z); (0 + z); (2 + z); (3 + z)]) (ET 3 [a; c; i; (0 + z)])) (ET 6 [(2 + z); b; (3 + z); (1 + z); j; k])))))))) (EScale (-1) 1 (ESum (0 + z) 0 (ESum (1 + z) 2 (ESum (2 + z) 3 (ESum (3 + z) 1 (EMul (EMul (ET 36 [(0 + z); (1 + z); (3 + z); (2 + z)]) (ET 3 [a; (2 + z); i; k])) (ET 6 [(3 + z); b; c; (0 + z); j; (1 + z)])))))))) (EScale (-1) 1 (ESum (0 + z) 2 (ESum (1 + z) 0 (ESum (2 + z) 1 (ESum (3 + z) 3 (EMul (EMul (ET 36 [(1 + z); (0 + z); (2 + z); (3 + z)]) (ET 3 [a; c; j; (0 + z)])) (ET 6 [(2 + z); b; (3 + z); i; (1 + z); k])))))))) (EScale (-1) 1 (ESum (0 + z) 0 (ESum (1 + z) 2 (ESum (2 + z) 3 (ESum (3 + z) 1 (EMul (EMul (ET 36 [(0 + z); (1 + z); (3 + z); (2 + z)]) (ET 3 [b; (2 + z); i; k])) (ET 6 [a; (3 + z); c; (0 + z); j; (1 + z)])))))))) (EScale (-1) 1 (ESum (0 + z) 0 (ESum (1 + z) 2 (ESum (2 + z) 1 (ESum (3 + z) 3 (EMul (EMul (ET 36 [(0 + z); (1 + z); (2 + z); (3 + z)]) (ET 3 [a; c; (0 + z); k])) (ET 6 [(2 + z); b; (3 + z); i; j; (1 + z)])))))))) (EScale (-1) 1 (ESum (0 + z) 0 (ESum (1 + z) 2 (ESum (2 + z) 1 (ESum (3 + z) 3 (EMul (EMul (ET 36 [(0 + z); (1 + z); (2 + z); (3 + z)]) (ET 3 [(2 + z); c; i; k])) (ET 6 [a; b; (3 + z); (0 + z); j; (1 + z)])))))))) (EScale (-1) 1 (ESum (0 + z) 2 (ESum (1 + z) 0 (ESum (2 + z) 1 (ESum (3 + z) 3 (EMul (EMul (ET 36 [(1 + z); (0 + z); (2 + z); (3 + z)]) (ET 3 [b; c; i; (0 + z)])) (ET 6 [a; (2 + z); (3 + z); (1 + z); j; k])))))))) (EScale (-1) 1 (ESum (0 + z) 0 (ESum (1 + z) 2 (ESum (2 + z) 3 (ESum (3 + z) 1 (EMul (EMul (ET 36 [(0 + z); (1 + z); (3 + z); (2 + z)]) (ET 3 [a; (2 + z); j; k])) (ET 6 [(3 + z); b; c; i; (0 + z); (1 + z)])))))))) (EScale (-1) 1 (ESum (0 + z) 2 (ESum (1 + z) 0 (ESum (2 + z) 1 (ESum (3 + z) 3 (EMul (EMul (ET 36 [(1 + z); (0 + z); (2 + z); (3 + z)]) (ET 3 [b; c; j; (0 + z)])) (ET 6 [a; (2 + z); (3 + z); i; (1 + z); k])))))))) (EScale (-1) 1 (ESum (0 + z) 0 (ESum (1 + z) 2 (ESum (2 + z) 3 (ESum (3 + z) 1 (EMul (EMul (ET 36 [(0 + z); (1 + z); (3 + z); (2 + z)]) (ET 3 [b; (2 + z); j; k])) (ET 6 [a; (3 + z); c; i; (0 + z); (1 + z)])))))))) (EScale (-1) 1 (ESum (0 + z) 0 (ESum (1 + z) 2 (ESum (2 + z) 1 (ESum (3 + z) 3 (EMul (EMul (ET 36 [(0 + z); (1 + z); (2 + z); (3 + z)]) (ET 3 [b; c; (0 + z); k])) (ET 6 [a; (2 + z); (3 + z); i; j; (1 + z)])))))))) (EScale (-1) 1 (ESum (0 + z) 0 (ESum (1 + z) 2 (ESum (2 + z) 1 (ESum (3 + z) 3 (EMul (EMul (ET 36 [(0 + z); (1 + z); (2 + z); (3 + z)]) (ET 3 [(2 + z); c; j; k])) (ET 6 [a; b; (3 + z); i; (0 + z); (1 + z)])))))))).
Definition k_crdia_abb (z a b c i j k : nat) : ex := (EAdd (EAdd (EAdd (EAdd (EAdd (EAdd (EAdd (EAdd (EAdd (EAdd (EAdd (EAdd (EAdd (EAdd (EAdd (EAdd (EAdd (EAdd (EAdd (EAdd (EAdd (EAdd (EAdd (EAdd (EAdd (EAdd (EAdd (EAdd (EAdd (EAdd (EAdd (EAdd (EAdd (EAdd (EAdd (EAdd (ESum (0 + z) 1 (EMul (k_hb_H_a_vv (1 + z) a (0 + z)) (ET 7 [(0 + z); b; c; i; j; k]))) (EScale (-1) 1 (ESum (0 + z) 0 (EMul (k_hb_H_a_oo (1 + z) (0 + z) i) (ET 7 [a; b; c; (0 + z); j; k]))))) (ESum (0 + z) 3 (EMul (k_hb_H_b_vv (1 + z) b (0 + z)) (ET 7 [a; (0 + z); c; i; j; k])))) (EScale (-1) 1 (ESum (0 + z) 2 (EMul (k_hb_H_b_oo (1 + z) (0 + z) j) (ET 7 [a; b; c; i; (0 + z); k]))))) (ESum (0 + z) 3 (EMul (k_hb_H_b_vv (1 + z) c (0 + z)) (ET 7 [a; b; (0 + z); i; j; k])))) (EScale (-1) 1 (ESum (0 + z) 2 (EMul (k_hb_H_b_oo (1 + z) (0 + z) k) (ET 7 [a; b; c; i; j; (0 + z)]))))) (ESum (0 + z) 1 (ESum (1 + z) 3 (EMul (k_hb_H_ab_vvvv (2 + z) a b (0 + z) (1 + z)) (ET 7 [(0 + z); (1 + z); c; i; j; k]))))) (ESum (0 + z) 0 (ESum (1 + z) 2 (EMul (k_hb_H_ab_oooo (2 + z) (0 + z) (1 + z) i j) (ET 7 [a; b; c; (0 + z); (1 + z); k]))))) (ESum (0 + z) 1 (ESum (1 + z) 3 (EMul (k_hb_H_ab_vvvv (2 + z) a c (0 + z) (1 + z)) (ET 7 [(0 + z); b; (1 + z); i; j; k]))))) (ESum (0 + z) 0 (ESum (1 + z) 2 (EMul (k_hb_H_ab_oooo (2 + z) (0 + z) (1 + z) i k) (ET 7 [a; b; c; (0 + z); j; (1 + z)]))))) (EScale (1) 2 (ESum (0 + z) 3 (ESum (1 + z) 3 (EMul (k_hb_H_bb_vvvv_1 (2 + z) b c (0 + z) (1 + z)) (ET 7 [a; (0 + z); (1 + z); i; j; k])))))) (EScale (1) 2 (ESum (0 + z) 2 (ESum (1 + z) 2 (EMul (k_hb_H_bb_oooo_1 (2 + z) (0 + z) (1 + z) j k) (ET 7 [a; b; c; i; (0 + z); (1 + z)])))))) (ESum (0 + z) 1 (ESum (1 + z) 0 (EMul (k_hb_H_aa_voov (2 + z) a (1 + z) i (0 + z)) (ET 7 [(0 + z); b; c; (1 + z); j; k]))))) (EScale (-1) 1 (ESum (0 + z) 1 (ESum (1 + z) 2 (EMul (k_hb_H_ab_vovo (2 + z) a (1 + z) (0 + z) j) (ET 7 [(0 + z); b; c; i; (1 + z); k])))))) (EScale (-1) 1 (ESum (0 + z) 1 (ESum (1 + z) 2 (EMul (k_hb_H_ab_vovo (2 + z) a (1 + z) (0 + z) k) (ET 7 [(0 + z); b; c; i; j; (1 + z)])))))) (EScale (-1) 1 (ESum (0 + z) 3 (ESum (1 + z) 0 (EMul (k_hb_H_ab_ovov (2 + z) (1 + z) b i (0 + z)) (ET 7 [a; (0 + z); c; (1 + z); j; k])))))) (ESum (0 + z) 3 (ESum (1 + z) 2 (EMul (k_hb_H_bb_voov (2 + z) b (1 + z) j (0 + z)) (ET 7 [a; (0 + z); c; i; (1 + z); k]))))) (ESum (0 + z) 3 (ESum (1 + z) 2 (EMul (k_hb_H_bb_voov (2 + z) b (1 + z) k (0 + z)) (ET 7 [a; (0 + z); c; i; j; (1 + z)]))))) (EScale (-1) 1 (ESum (0 + z) 3 (ESum (1 + z) 0 (EMul (k_hb_H_ab_ovov (2 + z) (1 + z) c i (0 + z)) (ET 7 [a; b; (0 + z); (1 + z); j; k])))))) (ESum (0 + z) 3 (ESum (1 + z) 2 (EMul (k_hb_H_bb_voov (2 + z) c (1 + z) j (0 + z)) (ET 7 [a; b; (0 + z); i; (1 + z); k]))))) (ESum (0 + z) 3 (ESum (1 + z) 2 (EMul (k_hb_H_bb_voov (2 + z) c (1 + z) k (0 + z)) (ET 7 [a; b; (0 + z); i; j; (1 + z)]))))) (EScale (-1) 1 (ESum (0 + z) 2 (ESum (1 + z) 0 (ESum (2 + z) 1 (ESum (3 + z) 3 (EMul (EMul (ET 36 [(1 + z); (0 + z); (2 + z); (3 + z)]) (ET 3 [a; b; i; (0 + z)])) (ET 7 [(2 + z); (3 + z); c; (1 + z); j; k])))))))) (EScale (-1) 1 (ESum (0 + z) 0 (ESum (1 + z) 2 (ESum (2 + z) 3 (ESum (3 + z) 1 (EMul (EMul (ET 36 [(0 + z); (1 + z); (3 + z); (2 + z)]) (ET 3 [a; (2 + z); i; j])) (ET 7 [(3 + z); b; c; (0 + z); (1 + z); k])))))))) (EScale (-1) 1 (ESum (0 + z) 0 (ESum (1 + z) 2 (ESum (2 + z) 1 (ESum (3 + z) 3 (EMul (EMul (ET 36 [(0 + z); (1 + z); (2 + z); (3 + z)]) (ET 3 [a; b; (0 + z); j])) (ET 7 [(2 + z); (3 + z); c; i; (1 + z); k])))))))) (EScale (-1) 1 (ESum (0 + z) 0 (ESum (1 + z) 2 (ESum (2 + z) 1 (ESum (3 + z) 3 (EMul (EMul (ET 36 [(0 + z); (1 + z); (2 + z); (3 + z)]) (ET 3 [(2 + z); b; i; j])) (ET 7 [a; (3 + z); c; (0 + z); (1 + z); k])))))))) (EScale (-1) 1 (ESum (0 + z) 0 (ESum (1 + z) 2 (ESum (2 + z) 1 (ESum (3 + z) 3 (EMul (EMul (ET 36 [(0 + z); (1 + z); (2 + z); (3 + z)]) (ET 3 [a; b; (0 + z); k])) (ET 7 [(2 + z); (3 + z); c; i; j; (1 + z)])))))))) (EScale (-1) 1 (ESum (0 + z) 0 (ESum (1 + z) 2 (ESum (2 + z) 1 (ESum (3 + z) 3 (EMul (EMul (ET 36 [(0 + z); (1 + z); (2 + z); (3 + z)]) (ET 3 [(2 + z); c; i; j])) (ET 7 [a; b; (3 + z); (0 + z); (1 + z); k])))))))) (EScale (-1) 1 (ESum (0 + z) 2 (ESum (1 + z) 0 (ESum (2 + z) 1 (ESum (3 + z) 3 (EMul (EMul (ET 36 [(1 + z); (0 + z); (2 + z); (3 + z)]) (ET 3 [a; c; i; (0 + z)])) (ET 7 [(2 + z); b; (3 + z); (1 + z); j; k])))))))) (EScale (-1) 1 (ESum (0 + z) 0 (ESum (1 + z) 2 (ESum (2 + z) 3 (ESum (3 + z) 1 (EMul (EMul (ET 36 [(0 + z); (1 + z); (3 + z); (2 + z)]) (ET 3 [a; (2 + z); i; k])) (ET 7 [(3 + z); b; c; (0 + z); j; (1 + z)])))))))) (EScale (-1) 1 (ESum (0 + z) 0 (ESum (1 + z) 2 (ESum (2 + z) 1 (ESum (3 + z) 3 (EMul (EMul (ET 36 [(0 + z); (1 + z); (2 + z); (3 + z)]) (ET 3 [a; c; (0 + z); j])) (ET 7 [(2 + z); b; (3 + z); i; (1 + z); k])))))))) (EScale (-1) 1 (ESum (0 + z) 0 (ESum (1 + z) 2 (ESum (2 + z) 1 (ESum (3 + z) 3 (EMul (EMul (ET 36 [(0 + z); (1 + z); (2 + z); (3 + z)]) (ET 3 [(2 + z); b; i; k])) (ET 7 [a; (3 + z); c; (0 + z); j; (1 + z)])))))))) (EScale (-1) 1 (ESum (0 + z) 0 (ESum (1 + z) 2 (ESum (2 + z) 1 (ESum (3 + z) 3 (EMul (EMul (ET 36 [(0 + z); (1 + z); (2 + z); (3 + z)]) (ET 3 [a; c; (0 + z); k])) (ET 7 [(2 + z); b; (3 + z); i; j; (1 + z)])))))))) (EScale (-1) 1 (ESum (0 + z) 0 (ESum (1 + z) 2 (ESum (2 + z) 1 (ESum (3 + z) 3 (EMul (EMul (ET 36 [(0 + z); (1 + z); (2 + z); (3 + z)]) (ET 3 [(2 + z); c; i; k])) (ET 7 [a; b; (3 + z); (0 + z); j; (1 + z)])))))))) (EScale (-1) 2 (ESum (0 + z) 2 (ESum (1 + z) 2 (ESum (2 + z) 3 (ESum (3 + z) 3 (EMul (EMul (ET 52 [(0 + z); (1 + z); (2 + z); (3 + z)]) (ET 4 [b; c; (0 + z); j])) (ET 7 [a; (2 + z); (3 + z); i; (1 + z); k])))))))) (EScale (-1) 2 (ESum (0 + z) 2 (ESum (1 + z) 2 (ESum (2 + z) 3 (ESum (3 + z) 3 (EMul (EMul (ET 52 [(0 + z); (1 + z); (2 + z); (3 + z)]) (ET 4 [(2 + z); b; j; k])) (ET 7 [a; (3 + z); c; i; (0 + z); (1 + z)])))))))) (EScale (-1) 2 (ESum (0 + z) 2 (ESum (1 + z) 2 (ESum (2 + z) 3 (ESum (3 + z) 3 (EMul (EMul (ET 52 [(0 + z); (1 + z); (2 + z); (3 + z)]) (ET 4 [b; c; (0 + z); k])) (ET 7 [a; (2 + z); (3 + z); i; j; (1 + z)])))))))) (EScale (-1) 2 (ESum (0 + z) 2 (ESum (1 + z) 2 (ESum (2 + z) 3 (ESum (3 + z) 3 (EMul (EMul (ET 52 [(0 + z); (1 + z); (2 + z); (3 + z)]) (ET 4 [(2 + z); c; j; k])) (ET 7 [a; b; (3 + z); i; (0 + z); (1 + z)])))))))).
Definition k_crdia_bbb (z a b c i j k : nat) : ex := (EAdd (EAdd (EAdd (EAdd (EAdd (EAdd (EAdd (EAdd (EAdd (EAdd (EAdd (EAdd (EAdd (EAdd (EAdd (EAdd (EAdd (EAdd (EAdd (EAdd (EAdd (EAdd (EAdd (EAdd (EAdd (EAdd (EAdd (EAdd (EAdd (EAdd (EAdd (EAdd (EAdd (EAdd (EAdd (EAdd (EAdd (EAdd (ESum (0 + z) 3 (EMul (k_hb_H_b_vv (1 + z) a (0 + z)) (ET 8 [(0 + z); b; c; i; j; k]))) (EScale (-1) 1 (ESum (0 + z) 2 (EMul (k_hb_H_b_oo (1 + z) (0 + z) i) (ET 8 [a; b; c; (0 + z); j; k]))))) (ESum (0 + z) 3 (EMul (k_hb_H_b_vv (1 + z) b (0 + z)) (ET 8 [a; (0 + z); c; i; j; k])))) (EScale (-1) 1 (ESum (0 + z) 2 (EMul (k_hb_H_b_oo (1 + z) (0 + z) j) (ET 8 [a; b; c; i; (0 + z); k]))))) (ESum (0 + z) 3 (EMul (k_hb_H_b_vv (1 + z) c (0 + z)) (ET 8 [a; b; (0 + z); i; j; k])))) (EScale (-1) 1 (ESum (0 + z) 2 (EMul (k_hb_H_b_oo (1 + z) (0 + z) k) (ET 8 [a; b; c; i; j; (0 + z)]))))) (EScale (1) 2 (ESum (0 + z) 3 (ESum (1 + z) 3 (EMul (k_hb_H_bb_vvvv_1 (2 + z) a b (0 + z) (1 + z)) (ET 8 [(0 + z); (1 + z); c; i; j; k])))))) (EScale (1) 2 (ESum (0 + z) 2 (ESum (1 + z) 2 (EMul (k_hb_H_bb_oooo_1 (2 + z) (0 + z) (1 + z) i j) (ET 8 [a; b; c; (0 + z); (1 + z); k])))))) (EScale (1) 2 (ESum (0 + z) 3 (ESum (1 + z) 3 (EMul (k_hb_H_bb_vvvv_1 (2 + z) a c (0 + z) (1 + z)) (ET 8 [(0 + z); b; (1 + z); i; j; k])))))) (EScale (1) 2 (ESum (0 + z) 2 (ESum (1 + z) 2 (EMul (k_hb_H_bb_oooo_1 (2 + z) (0 + z) (1 + z) i k) (ET 8 [a; b; c; (0 + z); j; (1 + z)])))))) (EScale (1) 2 (ESum (0 + z) 3 (ESum (1 + z) 3 (EMul (k_hb_H_bb_vvvv_1 (2 + z) b c (0 + z) (1 + z)) (ET 8 [a; (0 + z); (1 + z); i; j; k])))))) (EScale (1) 2 (ESum (0 + z) 2 (ESum (1 + z) 2 (EMul (k_hb_H_bb_oooo_1 (2 + z) (0 + z) (1 + z) j k) (ET 8 [a; b; c; i; (0 + z); (1 + z)])))))) (ESum (0 + z) 3 (ESum (1 + z) 2 (EMul (k_hb_H_bb_voov (2 + z) a (1 + z) i (0 + z)) (ET 8 [(0 + z); b; c; (1 + z); j; k]))))) (ESum (0 + z) 3 (ESum (1 + z) 2 (EMul (k_hb_H_bb_voov (2 + z) a (1 + z) j (0 + z)) (ET 8 [(0 + z); b; c; i; (1 + z); k]))))) (ESum (0 + z) 3 (ESum (1 + z) 2 (EMul (k_hb_H_bb_voov (2 + z) a (1 + z) k (0 + z)) (ET 8 [(0 + z); b; c; i; j; (1 + z)]))))) (ESum (0 + z) 3 (ESum (1 + z) 2 (EMul (k_hb_H_bb_voov (2 + z) b (1 + z) i (0 + z)) (ET 8 [a; (0 + z); c; (1 + z); j; k]))))) (ESum (0 + z) 3 (ESum (1 + z) 2 (EMul (k_hb_H_bb_voov (2 + z) b (1 + z) j (0 + z)) (ET 8 [a; (0 + z); c; i; (1 + z); k]))))) (ESum (0 + z) 3 (ESum (1 + z) 2 (EMul (k_hb_H_bb_voov (2 + z) b (1 + z) k (0 + z)) (ET 8 [a; (0 + z); c; i; j; (1 + z)]))))) (ESum (0 + z) 3 (ESum (1 + z) 2 (EMul (k_hb_H_bb_voov (2 + z) c (1 + z) i (0 + z)) (ET 8 [a; b; (0 + z); (1 + z); j; k]))))) (ESum (0 + z) 3 (ESum (1 + z) 2 (EMul (k_hb_H_bb_voov (2 + z) c (1 + z) j (0 + z)) (ET 8 [a; b; (0 + z); i; (1 + z); k]))))) (ESum (0 + z) 3 (ESum (1 + z) 2 (EMul (k_hb_H_bb_voov (2 + z) c (1 + z) k (0 + z)) (ET 8 [a; b; (0 + z); i; j; (1 + z)]))))) (EScale (-1) 2 (ESum (0 + z) 2 (ESum (1 + z) 2 (ESum (2 + z) 3 (ESum (3 + z) 3 (EMul (EMul (ET 52 [(0 + z); (1 + z); (2 + z); (3 + z)]) (ET 4 [a; b; (0 + z); i])) (ET 8 [(2 + z); (3 + z); c; (1 + z); j; k])))))))) (EScale (-1) 2 (ESum (0 + z) 2 (ESum (1 + z) 2 (ESum (2 + z) 3 (ESum (3 + z) 3 (EMul (EMul (ET 52 [(0 + z); (1 + z); (2 + z); (3 + z)]) (ET 4 [(2 + z); a; i; j])) (ET 8 [(3 + z); b; c; (0 + z); (1 + z); k])))))))) (EScale (-1) 2 (ESum (0 + z) 2 (ESum (1 + z) 2 (ESum (2 + z) 3 (ESum (3 + z) 3 (EMul (EMul (ET 52 [(0 + z); (1 + z); (2 + z); (3 + z)]) (ET 4 [a; b; (0 + z); j])) (ET 8 [(2 + z); (3 + z); c; i; (1 + z); k])))))))) (EScale (-1) 2 (ESum (0 + z) 2 (ESum (1 + z) 2 (ESum (2 + z) 3 (ESum (3 + z) 3 (EMul (EMul (ET 52 [(0 + z); (1 + z); (2 + z); (3 + z)]) (ET 4 [(2 + z); b; i; j])) (ET 8 [a; (3 + z); c; (0 + z); (1 + z); k])))))))) (EScale (-1) 2 (ESum (0 + z) 2 (ESum (1 + z) 2 (ESum (2 + z) 3 (ESum (3 + z) 3 (EMul (EMul (ET 52 [(0 + z); (1 + z); (2 + z); (3 + z)]) (ET 4 [a; b; (0 + z); k])) (ET 8 [(2 + z); (3 + z); c; i; j; (1 + z)])))))))) (EScale (-1) 2 (ESum (0 + z) 2 (ESum (1 + z) 2 (ESum (2 + z) 3 (ESum (3 + z) 3 (EMul (EMul (ET 52 [(0 + z); (1 + z); (2 + z); (3 + z)]) (ET 4 [(2 + z); c; i; j])) (ET 8 [a; b; (3 + z); (0 + z); (1 + z); k])))))))) (EScale (-1) 2 (ESum (0 + z) 2 (ESum (1 + z) 2 (ESum (2 + z) 3 (ESum (3 + z) 3 (EMul (EMul (ET 52 [(0 + z); (1 + z); (2 + z); (3 + z)]) (ET 4 [a; c; (0 + z); i])) (ET 8 [(2 + z); b; (3 + z); (1 + z); j; k])))))))) (EScale (-1) 2 (ESum (0 + z) 2 (ESum (1 + z) 2 (ESum (2 + z) 3 (ESum (3 + z) 3 (EMul (EMul (ET 52 [(0 + z); (1 + z); (2 + z); (3 + z)]) (ET 4 [(2 + z); a; i; k])) (ET 8 [(3 + z); b; c; (0 + z); j; (1 + z)])))))))) (EScale (-1) 2 (ESum (0 + z) 2 (ESum (1 + z) 2 (ESum (2 + z) 3 (ESum (3 + z) 3 (EMul (EMul (ET 52 [(0 + z); (1 + z); (2 + z); (3 + z)]) (ET 4 [a; c; (0 + z); j])) (ET 8 [(2 + z); b; (3 + z); i; (1 + z); k])))))))) (EScale (-1) 2 (ESum (0 + z) 2 (ESum (1 + z) 2 (ESum (2 + z) 3 (ESum (3 + z) 3 (EMul (EMul (ET 52 [(0 + z); (1 + z); (2 + z); (3 + z)]) (ET 4 [(2 + z); b; i; k])) (ET 8 [a; (3 + z); c; (0 + z); j; (1 + z)])))))))) (EScale (-1) 2 (ESum (0 + z) 2 (ESum (1 + z) 2 (ESum (2 + z) 3 (ESum (3 + z) 3 (EMul (EMul (ET 52 [(0 + z); (1 + z); (2 + z); (3 + z)]) (ET 4 [a; c; (0 + z); k])) (ET 8 [(2 + z); b; (3 + z); i; j; (1 + z)])))))))) (EScale (-1) 2 (ESum (0 + z) 2 (ESum (1 + z) 2 (ESum (2 + z) 3 (ESum (3 + z) 3 (EMul (EMul (ET 52 [(0 + z); (1 + z); (2 + z); (3 + z)]) (ET 4 [(2 + z); c; i; k])) (ET 8 [a; b; (3 + z); (0 + z); j; (1 + z)])))))))) (EScale (-1) 2 (ESum (0 + z) 2 (ESum (1 + z) 2 (ESum (2 + z) 3 (ESum (3 + z) 3 (EMul (EMul (ET 52 [(0 + z); (1 + z); (2 + z); (3 + z)]) (ET 4 [b; c; (0 + z); i])) (ET 8 [a; (2 + z); (3 + z); (1 + z); j; k])))))))) (EScale (-1) 2 (ESum (0 + z) 2 (ESum (1 + z) 2 (ESum (2 + z) 3 (ESum (3 + z) 3 (EMul (EMul (ET 52 [(0 + z); (1 + z); (2 + z); (3 + z)]) (ET 4 [(2 + z); a; j; k])) (ET 8 [(3 + z); b; c; i; (0 + z); (1 + z)])))))))) (EScale (-1) 2 (ESum (0 + z) 2 (ESum (1 + z) 2 (ESum (2 + z) 3 (ESum (3 + z) 3 (EMul (EMul (ET 52 [(0 + z); (1 + z); (2 + z); (3 + z)]) (ET 4 [b; c; (0 + z); j])) (ET 8 [a; (2 + z); (3 + z); i; (1 + z); k])))))))) (EScale (-1) 2 (ESum (0 + z) 2 (ESum (1 + z) 2 (ESum (2 + z) 3 (ESum (3 + z) 3 (EMul (EMul (ET 52 [(0 + z); (1 + z); (2 + z); (3 + z)]) (ET 4 [(2 + z); b; j; k])) (ET 8 [a; (3 + z); c; i; (0 + z); (1 + z)])))))))) (EScale (-1) 2 (ESum (0 + z) 2 (ESum (1 + z) 2 (ESum (2 + z) 3 (ESum (3 + z) 3 (EMul (EMul (ET 52 [(0 + z); (1 + z); (2 + z); (3 + z)]) (ET 4 [b; c; (0 + z); k])) (ET 8 [a; (2 + z); (3 + z); i; j; (1 + z)])))))))) (EScale (-1) 2 (ESum (0 + z) 2 (ESum (1 + z) 2 (ESum (2 + z) 3 (ESum (3 + z) 3 (EMul (EMul (ET 52 [(0 + z); (1 + z); (2 + z); (3 + z)]) (ET 4 [(2 + z); c; j; k])) (ET 8 [a; b; (3 + z); i; (0 + z); (1 + z)])))))))).
Definition pair_lhs : ex := (EAdd (EAdd (EAdd (EAdd (ESum 0 1 (ESum 1 0 (EMul (ET 66 [0; 1]) (e_sdt_a 0 1)))) (ESum 0 3 (ESum 1 2 (EMul (ET 67 [0; 1]) (e_sdt_b 0 1))))) (EScale 1 4 (ESum 0 1 (ESum 1 1 (ESum 2 0 (ESum 3 0 (EMul (ET 68 [0; 1; 2; 3]) (e_sdt_aa 0 1 2 3)))))))) (ESum 0 1 (ESum 1 3 (ESum 2 0 (ESum 3 2 (EMul (ET 69 [0; 1; 2; 3]) (e_sdt_ab 0 1 2 3))))))) (EScale 1 4 (ESum 0 3 (ESum 1 3 (ESum 2 2 (ESum 3 2 (EMul (ET 70 [0; 1; 2; 3]) (e_sdt_bb 0 1 2 3)))))))).
Definition pair_rhs : ex := (EAdd (EAdd (EAdd (EScale 1 36 (ESum 0 1 (ESum 1 1 (ESum 2 1 (ESum 3 0 (ESum 4 0 (ESum 5 0 (EMul (ET 5 [0; 1; 2; 3; 4; 5]) (k_crcc_L_aaa 10 0 1 2 3 4 5))))))))) (EScale 1 4 (ESum 0 1 (ESum 1 1 (ESum 2 3 (ESum 3 0 (ESum 4 0 (ESum 5 2 (EMul (ET 6 [0; 1; 2; 3; 4; 5]) (k_crcc_L_aab 10 0 1 2 3 4 5)))))))))) (EScale 1 4 (ESum 0 1 (ESum 1 3 (ESum 2 3 (ESum 3 0 (ESum 4 2 (ESum 5 2 (EMul (ET 7 [0; 1; 2; 3; 4; 5]) (k_crcc_L_abb 10 0 1 2 3 4 5)))))))))) (EScale 1 36 (ESum 0 3 (ESum 1 3 (ESum 2 3 (ESum 3 2 (ESum 4 2 (ESum 5 2 (EMul (ET 8 [0; 1; 2; 3; 4; 5]) (k_crcc_L_bbb 10 0 1 2 3 4 5)))))))))).
Lemma chk_pair : same_tab crcc_tab (fun x => x) [0; 1; 2; 3] (killp no1 (dif no3 pair_lhs)) (killp no1 pair_rhs) = true. Proof. vm_compute. reflexivity. Qed.
Lemma chk_M_aaa : same_tab crcc_tab (fun x => x) [0; 1; 2; 3] (killp no13 (e_sdt_aaa 0 1 2 3 4 5)) (killp no13 (k_crcc_M_aaa 10 0 1 2 3 4 5)) = true. Proof. vm_compute. reflexivity. Qed.
Definition only_aaa (k : nat) : bool := (k <? 2) || (k =? 6) || (k =? 7) || (k =? 8).
Lemma chk_D_aaa : same_tab crcc_tab (fun x => x) [0; 1; 2; 3] (killp only_aaa (dif no3 (e_sdt_aaa 0 1 2 3 4 5))) (killp no1 (k_crdia_aaa 10 0 1 2 3 4 5)) = true. Proof. vm_compute. reflexivity. Qed.
Lemma chk_M_aab : same_tab crcc_tab (fun x => x) [0; 1; 2; 3] (killp no13 (e_sdt_aab 0 1 2 3 4 5)) (killp no13 (k_crcc_M_aab 10 0 1 2 3 4 5)) = true. Proof. vm_compute. reflexivity. Qed.
Definition only_aab (k : nat) : bool := (k <? 2) || (k =? 5) || (k =? 7) || (k =? 8).
Lemma chk_D_aab : same_tab crcc_tab (fun x => x) [0; 1; 2; 3] (killp only_aab (dif no3 (e_sdt_aab 0 1 2 3 4 5))) (killp no1 (k_crdia_aab 10 0 1 2 3 4 5)) = true. Proof. vm_compute. reflexivity. Qed.
Lemma chk_M_abb : same_tab crcc_tab (fun x => x) [0; 1; 2; 3] (killp no13 (e_sdt_abb 0 1 2 3 4 5)) (killp no13 (k_crcc_M_abb 10 0 1 2 3 4 5)) = true. Proof. vm_compute. reflexivity. Qed.
Definition only_abb (k : nat) : bool := (k <? 2) || (k =? 5) || (k =? 6) || (k =? 8).
Lemma chk_D_abb : same_tab crcc_tab (fun x => x) [0; 1; 2; 3] (killp only_abb (dif no3 (e_sdt_abb 0 1 2 3 4 5))) (killp no1 (k_crdia_abb 10 0 1 2 3 4 5)) = true. Proof. vm_compute. reflexivity. Qed.
Lemma chk_M_bbb : same_tab crcc_tab (fun x => x) [0; 1; 2; 3] (killp no13 (e_sdt_bbb 0 1 2 3 4 5)) (killp no13 (k_crcc_M_bbb 10 0 1 2 3 4 5)) = true. Proof. vm_compute. reflexivity. Qed.
Definition only_bbb (k : nat) : bool := (k <? 2) || (k =? 5) || (k =? 6) || (k =? 7).
Lemma chk_D_bbb : same_tab crcc_tab (fun x => x) [0; 1; 2; 3] (killp only_bbb (dif no3 (e_sdt_bbb 0 1 2 3 4 5))) (killp no1 (k_crdia_bbb 10 0 1 2 3 4 5)) = true. Proof. vm_compute. reflexivity. Qed.
Lemma chk_A_aaa0 : same_tab crcc_tab (fun x => x) [0; 1; 2; 3] (killp no13 (k_crcc_L_aaa 10 0 1 2 3 4 5)) (EOpp (killp no13 (k_crcc_L_aaa 10 1 0 2 3 4 5))) = true. Proof. vm_compute. reflexivity. Qed.
Lemma chk_A_aaa1 : same_tab crcc_tab (fun x => x) [0; 1; 2; 3] (killp no13 (k_crcc_L_aaa 10 0 1 2 3 4 5)) (EOpp (killp no13 (k_crcc_L_aaa 10 0 2 1 3 4 5))) = true. Proof. vm_compute. reflexivity. Qed.
Lemma chk_A_aaa2 : same_tab crcc_tab (fun x => x) [0; 1; 2; 3] (killp no13 (k_crcc_L_aaa 10 0 1 2 3 4 5)) (EOpp (killp no13 (k_crcc_L_aaa 10 0 1 2 4 3 5))) = true. Proof. vm_compute. reflexivity. Qed.
Lemma chk_A_aaa3 : same_tab crcc_tab (fun x => x) [0; 1; 2; 3] (killp no13 (k_crcc_L_aaa 10 0 1 2 3 4 5)) (EOpp (killp no13 (k_crcc_L_aaa 10 0 1 2 3 5 4))) = true. Proof. vm_compute. reflexivity. Qed.
Lemma chk_A_aab0 : same_tab crcc_tab (fun x => x) [0; 1; 2; 3] (killp no13 (k_crcc_L_aab 10 0 1 2 3 4 5)) (EOpp (killp no13 (k_crcc_L_aab 10 1 0 2 3 4 5))) = true. Proof. vm_compute. reflexivity. Qed.
Lemma chk_A_aab1 : same_tab crcc_tab (fun x => x) [0; 1; 2; 3] (killp no13 (k_crcc_L_aab 10 0 1 2 3 4 5)) (EOpp (killp no13 (k_crcc_L_aab 10 0 1 2 4 3 5))) = true. Proof. vm_compute. reflexivity. Qed.
Lemma chk_A_abb0 : same_tab crcc_tab (fun x => x) [0; 1; 2; 3] (killp no13 (k_crcc_L_abb 10 0 1 2 3 4 5)) (EOpp (killp no13 (k_crcc_L_abb 10 0 2 1 3 4 5))) = true. Proof. vm_compute. reflexivity. Qed.
Lemma chk_A_abb1 : same_tab crcc_tab (fun x => x) [0; 1; 2; 3] (killp no13 (k_crcc_L_abb 10 0 1 2 3 4 5)) (EOpp (killp no13 (k_crcc_L_abb 10 0 1 2 3 5 4))) = true. Proof. vm_compute. reflexivity. Qed.
Lemma chk_A_bbb0 : same_tab crcc_tab (fun x => x) [0; 1; 2; 3] (killp no13 (k_crcc_L_bbb 10 0 1 2 3 4 5)) (EOpp (killp no13 (k_crcc_L_bbb 10 1 0 2 3 4 5))) = true. Proof. vm_compute. reflexivity. Qed.
Lemma chk_A_bbb1 : same_tab crcc_tab (fun x => x) [0; 1; 2; 3] (killp no13 (k_crcc_L_bbb 10 0 1 2 3 4 5)) (EOpp (killp no13 (k_crcc_L_bbb 10 0 2 1 3 4 5))) = true. Proof. vm_compute. reflexivity. Qed.
Lemma chk_A_bbb2 : same_tab crcc_tab (fun x => x) [0; 1; 2; 3] (killp no13 (k_crcc_L_bbb 10 0 1 2 3 4 5)) (EOpp (killp no13 (k_crcc_L_bbb 10 0 1 2 4 3 5))) = true. Proof. vm_compute. reflexivity. Qed.
Lemma chk_A_bbb3 : same_tab crcc_tab (fun x => x) [0; 1; 2; 3] (killp no13 (k_crcc_L_bbb 10 0 1 2 3 4 5)) (EOpp (killp no13 (k_crcc_L_bbb 10 0 1 2 3 5 4))) = true. Proof. vm_compute. reflexivity. Qed.
Local Open Scope R_scope.
(** The amplitudes without triples *)
Definition plain (T : amps) : amps := mkAmps (x_a T) (x_b T) (x_aa T) (x_ab T) (x_bb T) (fun _ _ _ _ _ _ => 0) (fun _ _ _ _ _ _ => 0) (fun _ _ _ _ _ _ => 0) (fun _ _ _ _ _ _ => 0).
(** Left amplitudes against singles and doubles, and triples against left triples *)
Definition left_pair (d : dims) (L X : amps) : R :=
  (sumn (nua d) (fun a => sumn (noa d) (fun i => x_a L a i * x_a X a i))) + (sumn (nub d) (fun a => sumn (nob d) (fun i => x_b L a i * x_b X a i))) + (1 / 4 * sumn (nua d) (fun a => sumn (nua d) (fun b => sumn (noa d) (fun i => sumn (noa d) (fun j => x_aa L a b i j * x_aa X a b i j))))) + (sumn (nua d) (fun a => sumn (nub d) (fun b => sumn (noa d) (fun i => sumn (nob d) (fun j => x_ab L a b i j * x_ab X a b i j))))) + (1 / 4 * sumn (nub d) (fun a => sumn (nub d) (fun b => sumn (nob d) (fun i => sumn (nob d) (fun j => x_bb L a b i j * x_bb X a b i j))))).
Definition right_pair (d : dims) (Y : amps) (La Lb Lc Ld : mat6) : R :=
  (1 / 36 * sumn (nua d) (fun a => sumn (nua d) (fun b => sumn (nua d) (fun c => sumn (noa d) (fun i => sumn (noa d) (fun j => sumn (noa d) (fun k => x_aaa Y a b c i j k * La a b c i j k))))))) + (1 / 4 * sumn (nua d) (fun a => sumn (nua d) (fun b => sumn (nub d) (fun c => sumn (noa d) (fun i => sumn (noa d) (fun j => sumn (nob d) (fun k => x_aab Y a b c i j k * Lb a b c i j k))))))) + (1 / 4 * sumn (nua d) (fun a => sumn (nub d) (fun b => sumn (nub d) (fun c => sumn (noa d) (fun i => sumn (nob d) (fun j => sumn (nob d) (fun k => x_abb Y a b c i j k * Lc a b c i j k))))))) + (1 / 36 * sumn (nub d) (fun a => sumn (nub d) (fun b => sumn (nub d) (fun c => sumn (nob d) (fun i => sumn (nob d) (fun j => sumn (nob d) (fun k => x_bbb Y a b c i j k * Ld a b c i j k))))))).
Section P.
Variables (d : dims) (I : integrals) (T0 L : amps) (H0 : ints).
Hypothesis HI : exchangeable I.
Hypothesis HT : antisym_amps T0.
Hypothesis HY : triples_anti T0.
Hypothesis HL : antisym_amps L.
Notation T := (bare T0).
Notation H := (fock_ints (noa d) (nob d) I).
Notation LS := [ap2 (x_a L); ap2 (x_b L); ap4 (x_aa L); ap4 (x_ab L); ap4 (x_bb L)].
Notation ten := (tenv (fock_arrays H T ++ LS)).
Notation ten0 := (tenv (fock_arrays H (plain T) ++ LS)).
Notation dn e v := (den (fdim d) ten e v).
Notation dn0 e v := (den (fdim d) ten0 e v).
Lemma crcc_syms : Forall (fun g => okalt ten (fst g) (snd g)) crcc_gens.
Proof.
  apply sector_syms; [exact (fock_ints_antisym _ _ _ HI)|exact (bare_anti _ HT)|]. destruct HY as (A0 & A1 & A2 & A3 & A4 & A5 & A6 & A7 & A8 & A9 & A10 & A11). destruct HL as [Z0 Z1 Z2 Z3].
  apply Forall_cons; [okswap6 A0|]. apply Forall_cons; [okswap6 A1|]. apply Forall_cons; [okswap6 A2|]. apply Forall_cons; [okswap6 A3|]. apply Forall_cons; [okswap6 A4|]. apply Forall_cons; [okswap6 A5|]. apply Forall_cons; [okswap6 A6|]. apply Forall_cons; [okswap6 A7|]. apply Forall_cons; [okswap6 A8|]. apply Forall_cons; [okswap6 A9|]. apply Forall_cons; [okswap6 A10|]. apply Forall_cons; [okswap6 A11|].
  apply Forall_cons; [okswap Z1|]. apply Forall_cons; [okswap Z0|]. apply Forall_cons; [okswap Z3|]. apply Forall_cons; [okswap Z2|]. apply Forall_nil.
Qed.
Ltac nil2 ix := destruct ix as [|? [|? [|]]]; reflexivity.
Ltac nil6 ix := do 7 (destruct ix as [|? ix]; [reflexivity|]); reflexivity.
Ltac zero6 ix Z := do 6 (destruct ix as [|? ix]; [reflexivity|]); destruct ix as [|? ix]; [apply Z|reflexivity].
Lemma t0_zero k ix : no13 k = true -> ten0 k ix = 0.
Proof.
  destruct k as [|[|[|[|[|[|[|[|[|k]]]]]]]]]; intros E; try discriminate E; unfold tenv; cbn [nth app fock_arrays plain bare x_a x_b x_aaa x_aab x_abb x_bbb]; [nil2 ix|nil2 ix|nil6 ix..].
Qed.
Lemma t0_off k ix : no3 k = false -> ten0 k ix = ten k ix.
Proof. destruct k as [|[|[|[|[|[|[|[|[|k]]]]]]]]]; intros E; try discriminate E; reflexivity. Qed.
Lemma t_one k ix : no1 k = true -> ten k ix = 0.
Proof. destruct k as [|[|k]]; intros E; try discriminate E; unfold tenv; cbn [nth app fock_arrays bare x_a x_b]; nil2 ix. Qed.
Lemma k13 e v : dn (killp no13 e) v = dn0 e v.
Proof. apply killp_ok; [apply t0_zero|]. intros k ix E. apply t0_off. unfold no3, no13 in *. apply orb_false_elim in E. tauto. Qed.
Lemma k3 e v : dn (killp no3 e) v = dn0 e v.
Proof. apply killp_ok; [|apply t0_off]. intros k ix E. apply t0_zero. unfold no3, no13 in *. rewrite E. apply orb_true_r. Qed.
Lemma k1 e v : dn (killp no1 e) v = dn e v.
Proof. apply killp_ok; [apply t_one|reflexivity]. Qed.
Lemma st a b : same_tab crcc_tab (fun x => x) [0; 1; 2; 3]%nat a b = true -> forall v, dn a v = dn b v.
Proof. intros K v. exact (same_tab_sound (fdim d) ten crcc_gens 71 crcc_tab (fun x => x) _ a b crcc_htab (fun _ => eq_refl) crcc_syms K v). Qed.
Notation X := (ccsdt_resid d H T).
Notation X0 := (ccsdt_resid d H (plain T)).
Notation HB := (hbar_ccsd d H T).
Lemma poly_M_aaa a b c i j k : x_aaa X0 a b c i j k = crcc_M_aaa d H0 HB T L a b c i j k.
Proof. change (dn0 (e_sdt_aaa 0 1 2 3 4 5) (venv [a; b; c; i; j; k]) = dn0 (k_crcc_M_aaa 10 0 1 2 3 4 5) (venv [a; b; c; i; j; k])). rewrite <- !k13. apply st, chk_M_aaa. Qed.
Lemma poly_A_aaa0 a b c i j k : crcc_L_aaa d H0 HB T L a b c i j k = - crcc_L_aaa d H0 HB T L b a c i j k.
Proof. change (dn0 (k_crcc_L_aaa 10 0 1 2 3 4 5) (venv [a; b; c; i; j; k]) = - dn0 (k_crcc_L_aaa 10 1 0 2 3 4 5) (venv [a; b; c; i; j; k])). rewrite <- !k13. exact (st _ _ chk_A_aaa0 (venv [a; b; c; i; j; k])). Qed.
Lemma poly_A_aaa1 a b c i j k : crcc_L_aaa d H0 HB T L a b c i j k = - crcc_L_aaa d H0 HB T L a c b i j k.
Proof. change (dn0 (k_crcc_L_aaa 10 0 1 2 3 4 5) (venv [a; b; c; i; j; k]) = - dn0 (k_crcc_L_aaa 10 0 2 1 3 4 5) (venv [a; b; c; i; j; k])). rewrite <- !k13. exact (st _ _ chk_A_aaa1 (venv [a; b; c; i; j; k])). Qed.
Lemma poly_A_aaa2 a b c i j k : crcc_L_aaa d H0 HB T L a b c i j k = - crcc_L_aaa d H0 HB T L a b c j i k.
Proof. change (dn0 (k_crcc_L_aaa 10 0 1 2 3 4 5) (venv [a; b; c; i; j; k]) = - dn0 (k_crcc_L_aaa 10 0 1 2 4 3 5) (venv [a; b; c; i; j; k])). rewrite <- !k13. exact (st _ _ chk_A_aaa2 (venv [a; b; c; i; j; k])). Qed.
Lemma poly_A_aaa3 a b c i j k : crcc_L_aaa d H0 HB T L a b c i j k = - crcc_L_aaa d H0 HB T L a b c i k j.
Proof. change (dn0 (k_crcc_L_aaa 10 0 1 2 3 4 5) (venv [a; b; c; i; j; k]) = - dn0 (k_crcc_L_aaa 10 0 1 2 3 5 4) (venv [a; b; c; i; j; k])). rewrite <- !k13. exact (st _ _ chk_A_aaa3 (venv [a; b; c; i; j; k])). Qed.
Lemma poly_D_aaa a b c i j k : (forall a b c i j k, x_aab T0 a b c i j k = 0) -> (forall a b c i j k, x_abb T0 a b c i j k = 0) -> (forall a b c i j k, x_bbb T0 a b c i j k = 0) ->
  x_aaa X a b c i j k - x_aaa X0 a b c i j k = crdia_aaa d HB T a b c i j k.
Proof.
  intros Z1 Z2 Z3. change (dn (e_sdt_aaa 0 1 2 3 4 5) (venv [a; b; c; i; j; k]) - dn0 (e_sdt_aaa 0 1 2 3 4 5) (venv [a; b; c; i; j; k]) = dn (k_crdia_aaa 10 0 1 2 3 4 5) (venv [a; b; c; i; j; k])). rewrite <- k3, <- dif_ok, <- (k1 (k_crdia_aaa 10 0 1 2 3 4 5)).
  rewrite <- (st _ _ chk_D_aaa (venv [a; b; c; i; j; k])). symmetry. apply killp_ok; [|reflexivity]. intros k0 ix E. destruct k0 as [|[|[|[|[|[|[|[|[|k0]]]]]]]]]; try discriminate E; unfold tenv; cbn [nth app fock_arrays bare x_a x_b x_aaa x_aab x_abb x_bbb]; [nil2 ix|nil2 ix|zero6 ix Z1|zero6 ix Z2|zero6 ix Z3].
Qed.
Lemma poly_M_aab a b c i j k : x_aab X0 a b c i j k = crcc_M_aab d H0 HB T L a b c i j k.
Proof. change (dn0 (e_sdt_aab 0 1 2 3 4 5) (venv [a; b; c; i; j; k]) = dn0 (k_crcc_M_aab 10 0 1 2 3 4 5) (venv [a; b; c; i; j; k])). rewrite <- !k13. apply st, chk_M_aab. Qed.
Lemma poly_A_aab0 a b c i j k : crcc_L_aab d H0 HB T L a b c i j k = - crcc_L_aab d H0 HB T L b a c i j k.
Proof. change (dn0 (k_crcc_L_aab 10 0 1 2 3 4 5) (venv [a; b; c; i; j; k]) = - dn0 (k_crcc_L_aab 10 1 0 2 3 4 5) (venv [a; b; c; i; j; k])). rewrite <- !k13. exact (st _ _ chk_A_aab0 (venv [a; b; c; i; j; k])). Qed.
Lemma poly_A_aab1 a b c i j k : crcc_L_aab d H0 HB T L a b c i j k = - crcc_L_aab d H0 HB T L a b c j i k.
Proof. change (dn0 (k_crcc_L_aab 10 0 1 2 3 4 5) (venv [a; b; c; i; j; k]) = - dn0 (k_crcc_L_aab 10 0 1 2 4 3 5) (venv [a; b; c; i; j; k])). rewrite <- !k13. exact (st _ _ chk_A_aab1 (venv [a; b; c; i; j; k])). Qed.
Lemma poly_D_aab a b c i j k : (forall a b c i j k, x_aaa T0 a b c i j k = 0) -> (forall a b c i j k, x_abb T0 a b c i j k = 0) -> (forall a b c i j k, x_bbb T0 a b c i j k = 0) ->
  x_aab X a b c i j k - x_aab X0 a b c i j k = crdia_aab d HB T a b c i j k.
Proof.
  intros Z1 Z2 Z3. change (dn (e_sdt_aab 0 1 2 3 4 5) (venv [a; b; c; i; j; k]) - dn0 (e_sdt_aab 0 1 2 3 4 5) (venv [a; b; c; i; j; k]) = dn (k_crdia_aab 10 0 1 2 3 4 5) (venv [a; b; c; i; j; k])). rewrite <- k3, <- dif_ok, <- (k1 (k_crdia_aab 10 0 1 2 3 4 5)).
  rewrite <- (st _ _ chk_D_aab (venv [a; b; c; i; j; k])). symmetry. apply killp_ok; [|reflexivity]. intros k0 ix E. destruct k0 as [|[|[|[|[|[|[|[|[|k0]]]]]]]]]; try discriminate E; unfold tenv; cbn [nth app fock_arrays bare x_a x_b x_aaa x_aab x_abb x_bbb]; [nil2 ix|nil2 ix|zero6 ix Z1|zero6 ix Z2|zero6 ix Z3].
Qed.
Lemma poly_M_abb a b c i j k : x_abb X0 a b c i j k = crcc_M_abb d H0 HB T L a b c i j k.
Proof. change (dn0 (e_sdt_abb 0 1 2 3 4 5) (venv [a; b; c; i; j; k]) = dn0 (k_crcc_M_abb 10 0 1 2 3 4 5) (venv [a; b; c; i; j; k])). rewrite <- !k13. apply st, chk_M_abb. Qed.
Lemma poly_A_abb0 a b c i j k : crcc_L_abb d H0 HB T L a b c i j k = - crcc_L_abb d H0 HB T L a c b i j k.
Proof. change (dn0 (k_crcc_L_abb 10 0 1 2 3 4 5) (venv [a; b; c; i; j; k]) = - dn0 (k_crcc_L_abb 10 0 2 1 3 4 5) (venv [a; b; c; i; j; k])). rewrite <- !k13. exact (st _ _ chk_A_abb0 (venv [a; b; c; i; j; k])). Qed.
Lemma poly_A_abb1 a b c i j k : crcc_L_abb d H0 HB T L a b c i j k = - crcc_L_abb d H0 HB T L a b c i k j.
Proof. change (dn0 (k_crcc_L_abb 10 0 1 2 3 4 5) (venv [a; b; c; i; j; k]) = - dn0 (k_crcc_L_abb 10 0 1 2 3 5 4) (venv [a; b; c; i; j; k])). rewrite <- !k13. exact (st _ _ chk_A_abb1 (venv [a; b; c; i; j; k])). Qed.
Lemma poly_D_abb a b c i j k : (forall a b c i j k, x_aaa T0 a b c i j k = 0) -> (forall a b c i j k, x_aab T0 a b c i j k = 0) -> (forall a b c i j k, x_bbb T0 a b c i j k = 0) ->
  x_abb X a b c i j k - x_abb X0 a b c i j k = crdia_abb d HB T a b c i j k.
Proof.
  intros Z1 Z2 Z3. change (dn (e_sdt_abb 0 1 2 3 4 5) (venv [a; b; c; i; j; k]) - dn0 (e_sdt_abb 0 1 2 3 4 5) (venv [a; b; c; i; j; k]) = dn (k_crdia_abb 10 0 1 2 3 4 5) (venv [a; b; c; i; j; k])). rewrite <- k3, <- dif_ok, <- (k1 (k_crdia_abb 10 0 1 2 3 4 5)).
  rewrite <- (st _ _ chk_D_abb (venv [a; b; c; i; j; k])). symmetry. apply killp_ok; [|reflexivity]. intros k0 ix E. destruct k0 as [|[|[|[|[|[|[|[|[|k0]]]]]]]]]; try discriminate E; unfold tenv; cbn [nth app fock_arrays bare x_a x_b x_aaa x_aab x_abb x_bbb]; [nil2 ix|nil2 ix|zero6 ix Z1|zero6 ix Z2|zero6 ix Z3].
Qed.
Lemma poly_M_bbb a b c i j k : x_bbb X0 a b c i j k = crcc_M_bbb d H0 HB T L a b c i j k.
Proof. change (dn0 (e_sdt_bbb 0 1 2 3 4 5) (venv [a; b; c; i; j; k]) = dn0 (k_crcc_M_bbb 10 0 1 2 3 4 5) (venv [a; b; c; i; j; k])). rewrite <- !k13. apply st, chk_M_bbb. Qed.
Lemma poly_A_bbb0 a b c i j k : crcc_L_bbb d H0 HB T L a b c i j k = - crcc_L_bbb d H0 HB T L b a c i j k.
Proof. change (dn0 (k_crcc_L_bbb 10 0 1 2 3 4 5) (venv [a; b; c; i; j; k]) = - dn0 (k_crcc_L_bbb 10 1 0 2 3 4 5) (venv [a; b; c; i; j; k])). rewrite <- !k13. exact (st _ _ chk_A_bbb0 (venv [a; b; c; i; j; k])). Qed.
Lemma poly_A_bbb1 a b c i j k : crcc_L_bbb d H0 HB T L a b c i j k = - crcc_L_bbb d H0 HB T L a c b i j k.
Proof. change (dn0 (k_crcc_L_bbb 10 0 1 2 3 4 5) (venv [a; b; c; i; j; k]) = - dn0 (k_crcc_L_bbb 10 0 2 1 3 4 5) (venv [a; b; c; i; j; k])). rewrite <- !k13. exact (st _ _ chk_A_bbb1 (venv [a; b; c; i; j; k])). Qed.
Lemma poly_A_bbb2 a b c i j k : crcc_L_bbb d H0 HB T L a b c i j k = - crcc_L_bbb d H0 HB T L a b c j i k.
Proof. change (dn0 (k_crcc_L_bbb 10 0 1 2 3 4 5) (venv [a; b; c; i; j; k]) = - dn0 (k_crcc_L_bbb 10 0 1 2 4 3 5) (venv [a; b; c; i; j; k])). rewrite <- !k13. exact (st _ _ chk_A_bbb2 (venv [a; b; c; i; j; k])). Qed.
Lemma poly_A_bbb3 a b c i j k : crcc_L_bbb d H0 HB T L a b c i j k = - crcc_L_bbb d H0 HB T L a b c i k j.
Proof. change (dn0 (k_crcc_L_bbb 10 0 1 2 3 4 5) (venv [a; b; c; i; j; k]) = - dn0 (k_crcc_L_bbb 10 0 1 2 3 5 4) (venv [a; b; c; i; j; k])). rewrite <- !k13. exact (st _ _ chk_A_bbb3 (venv [a; b; c; i; j; k])). Qed.
Lemma poly_D_bbb a b c i j k : (forall a b c i j k, x_aaa T0 a b c i j k = 0) -> (forall a b c i j k, x_aab T0 a b c i j k = 0) -> (forall a b c i j k, x_abb T0 a b c i j k = 0) ->
  x_bbb X a b c i j k - x_bbb X0 a b c i j k = crdia_bbb d HB T a b c i j k.
Proof.
  intros Z1 Z2 Z3. change (dn (e_sdt_bbb 0 1 2 3 4 5) (venv [a; b; c; i; j; k]) - dn0 (e_sdt_bbb 0 1 2 3 4 5) (venv [a; b; c; i; j; k]) = dn (k_crdia_bbb 10 0 1 2 3 4 5) (venv [a; b; c; i; j; k])). rewrite <- k3, <- dif_ok, <- (k1 (k_crdia_bbb 10 0 1 2 3 4 5)).
  rewrite <- (st _ _ chk_D_bbb (venv [a; b; c; i; j; k])). symmetry. apply killp_ok; [|reflexivity]. intros k0 ix E. destruct k0 as [|[|[|[|[|[|[|[|[|k0]]]]]]]]]; try discriminate E; unfold tenv; cbn [nth app fock_arrays bare x_a x_b x_aaa x_aab x_abb x_bbb]; [nil2 ix|nil2 ix|zero6 ix Z1|zero6 ix Z2|zero6 ix Z3].
Qed.
Lemma poly_pair : left_pair d L X - left_pair d L X0 = right_pair d T0 (crcc_L_aaa d H0 HB T L) (crcc_L_aab d H0 HB T L) (crcc_L_abb d H0 HB T L) (crcc_L_bbb d H0 HB T L).
Proof.
  change (dn pair_lhs (venv []) - dn0 pair_lhs (venv []) = dn pair_rhs (venv [])). rewrite <- k3, <- dif_ok, <- (k1 (dif no3 pair_lhs)), <- (k1 pair_rhs). apply st, chk_pair.
Qed.
End P.
