(** Determinants a few electrons away from the reference, and the strings that reach them (proof support). *)
From Coq Require Import Reals Arith NArith List Bool Btauto Lia Lra FunctionalExtensionality.
From Verif Require Import RSum IntegralsModel TensorObjs FockSpec FockCar FockCcSpec SectorModel FockSectorSpec.
Import ListNotations.
Local Open Scope R_scope.

Definition flip (D : N) (p : nat) : N := if bit D p then off D p else on D p.
Lemma bit_flip D p q : bit (flip D p) q = xorb (bit D q) (Nat.eqb p q).
Proof.
  unfold flip. destruct (bit D p) eqn:B; rewrite ?bit_off, ?bit_on; destruct (Nat.eqb_spec p q) as [->|]; rewrite ?B; destruct (bit D q) eqn:C; try reflexivity; congruence.
Qed.
Lemma flip_off D p : bit D p = true -> off D p = flip D p. Proof. intros B. unfold flip. now rewrite B. Qed.
Lemma flip_on D p : bit D p = false -> on D p = flip D p. Proof. intros B. unfold flip. now rewrite B. Qed.
Definition flips (D : N) (l : list nat) : N := fold_left flip l D.
Fixpoint str (l : list (bool * nat)) (W : state) : state := match l with [] => W | (c, p) :: r => if c then cre p (str r W) else ann p (str r W) end.
Definition fits (D : N) (l : list (bool * nat)) : Prop := forall c p, In (c, p) l -> bit D p = c.
Lemma str_step c p r W D : bit D p = c -> exists s, s <> 0 /\ str ((c, p) :: r) W D = s * str r W (flip D p).
Proof.
  intros B. exists (phase p D). split.
  - intros E. assert (Q := phase_sq p D). rewrite E in Q. lra.
  - cbn [str]. destruct c; unfold cre, ann; rewrite B; f_equal; f_equal; [now apply flip_off|now apply flip_on].
Qed.
Lemma str_wrong W l : forall D c p, In (c, p) l -> (forall c', In (c', p) l -> c' = c) -> bit D p = negb c -> str l W D = 0.
Proof.
  induction l as [|[c' q] l IH]; intros D c p Hin Hu Hb; [destruct Hin|]. destruct (Nat.eq_dec p q) as [->|NE].
  - assert (c' = c) by (apply Hu; now left). subst c'. cbn [str]. destruct c; unfold cre, ann; now rewrite Hb.
  - destruct Hin as [Hin|Hin]; [congruence|]. cbn [str].
    assert (Z1 : str l W (off D q) = 0) by (apply (IH _ c p); auto; [intros; apply Hu; now right|]; rewrite bit_off, (eqb_neq q p) by auto; rewrite Hb; now destruct c).
    assert (Z2 : str l W (on D q) = 0) by (apply (IH _ c p); auto; [intros; apply Hu; now right|]; rewrite bit_on, (eqb_neq q p) by auto; now rewrite Hb).
    destruct c'; unfold cre, ann; destruct (bit D q); rewrite ?Z1, ?Z2; ring.
Qed.
Lemma str_zero W l : forall D, fits D l -> (str l W D = 0 <-> (NoDup (map snd l) -> W (flips D (map snd l)) = 0)).
Proof.
  induction l as [|[c p] l IH]; intros D HF.
  - cbn. split; [auto|]. intros H. apply H. constructor.
  - assert (B : bit D p = c) by (apply HF; now left). destruct (str_step c p l W D B) as (s & Hs & ->). cbn [map snd flips fold_left].
    destruct (in_dec Nat.eq_dec p (map snd l)) as [Hin|Hn].
    + apply in_map_iff in Hin as ([c' p'] & E & Hin). cbn [snd] in E. subst p'. assert (c' = c) by (rewrite <- (HF c' p) by (now right); exact B). subst c'.
      rewrite (str_wrong W l (flip D p) c p Hin).
      * split; [|intros; ring]. intros _ ND. exfalso. inversion ND as [|? ? N1 _]. apply N1. apply in_map_iff. now exists (c, p).
      * intros c' Hc'. rewrite <- (HF c' p) by (now right). exact B.
      * rewrite bit_flip, Nat.eqb_refl, B. now destruct c.
    + assert (HF' : fits (flip D p) l).
      { intros c' p' Hin. rewrite bit_flip, (eqb_neq p p'); [rewrite xorb_false_r; apply HF; now right|]. intros ->. apply Hn. apply in_map_iff. now exists (c', p'). }
      specialize (IH (flip D p) HF'). split.
      * intros E ND. apply Rmult_integral in E as [E|E]; [contradiction|]. inversion ND; subst. now apply IH.
      * intros E. replace (str l W (flip D p)) with 0; [ring|]. symmetry. apply IH. intros ND. apply E. now constructor.
Qed.
Lemma moved_flip n D1 D : moved n D1 D <-> exists so p q, (so = al \/ so = be) /\ (p < n)%nat /\ (q < n)%nat /\ bit D1 (so p) = true /\ bit D1 (so q) = false /\ D = flip (flip D1 (so p)) (so q).
Proof.
  unfold moved. split; intros (so & p & q & S & Hp & Hq & B1 & B2 & E); exists so, p, q; repeat (split; [assumption|]); rewrite E, <- ?(flip_off D1 (so p) B1), <- ?flip_on; try reflexivity;
    rewrite bit_off, B2; reflexivity.
Qed.
Lemma taken_flip so n D D' : taken so n D D' <-> exists p, (p < n)%nat /\ bit D (so p) = true /\ D' = flip D (so p).
Proof. split; intros (p & Hp & B & E); exists p; rewrite E, <- ?(flip_off D (so p) B); auto. Qed.
Lemma put_flip so n D D' : put so n D D' <-> exists p, (p < n)%nat /\ bit D (so p) = false /\ D' = flip D (so p).
Proof. split; intros (p & Hp & B & E); exists p; rewrite E, <- ?(flip_on D (so p) B); auto. Qed.
Ltac feq := apply bits_eq; let x := fresh "x" in intros x; cbn [flips fold_left]; rewrite ?bit_flip; btauto.
Lemma al_be p q : al p <> be q. Proof. unfold al, be. lia. Qed.
Lemma eqb_al p q : Nat.eqb (al p) (al q) = Nat.eqb p q. Proof. unfold al. destruct (Nat.eqb_spec p q); [subst; apply Nat.eqb_refl|apply Nat.eqb_neq; lia]. Qed.
Lemma eqb_be p q : Nat.eqb (be p) (be q) = Nat.eqb p q. Proof. unfold be. destruct (Nat.eqb_spec p q); [subst; apply Nat.eqb_refl|apply Nat.eqb_neq; lia]. Qed.
Lemma eqb_ab p q : Nat.eqb (al p) (be q) = false. Proof. apply Nat.eqb_neq, al_be. Qed.
Lemma eqb_ba p q : Nat.eqb (be p) (al q) = false. Proof. apply Nat.eqb_neq. intros E. now apply (al_be q p). Qed.
