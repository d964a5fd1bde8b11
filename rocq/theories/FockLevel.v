(** Excitation level: number of reference spin-orbitals that a determinant lacks (proof support). *)
From Coq Require Import Reals Arith NArith List Bool Lia Lra FunctionalExtensionality.
From Verif Require Import RSum FockSpec FockCar FockExp.
Import ListNotations.
Local Open Scope R_scope.

Section L.
Variable l : list nat.
Hypothesis ND : NoDup l.
Definition level (D : N) : nat := length (filter (fun q => negb (bit D q)) l).
Lemma level_on_out D p : ~ In p l -> level (on D p) = level D.
Proof.
  intros H. unfold level. f_equal. apply filter_ext_in. intros q Hq. rewrite bit_on. destruct (Nat.eqb_spec p q); [congruence|reflexivity].
Qed.
Lemma level_off_out D p : ~ In p l -> level (off D p) = level D.
Proof.
  intros H. unfold level. f_equal. apply filter_ext_in. intros q Hq. rewrite bit_off. destruct (Nat.eqb_spec p q); [congruence|]. now rewrite andb_true_r.
Qed.
Lemma level_on_in D p : In p l -> bit D p = false -> S (level (on D p)) = level D.
Proof.
  unfold level. clear -ND. induction l as [|x r IH]; intros Hp B; [contradiction|]. inversion ND as [|? ? N1 N2]; subst. cbn [filter]. rewrite bit_on.
  destruct (Nat.eqb_spec p x) as [->|NE].
  - rewrite B. cbn [orb negb length]. f_equal. f_equal. apply filter_ext_in. intros q Hq. rewrite bit_on. destruct (Nat.eqb_spec x q); [congruence|reflexivity].
  - destruct Hp as [Hp|Hp]; [congruence|]. cbn [orb]. destruct (negb (bit D x)); cbn [length]; rewrite <- (IH N2 Hp B); reflexivity.
Qed.
Lemma level_on_le D p : (level (on D p) <= level D)%nat.
Proof.
  unfold level. clear ND. induction l as [|x r IH]; [reflexivity|]. cbn [filter]. rewrite bit_on. destruct (Nat.eqb p x); cbn [orb negb]; [destruct (negb (bit D x)); cbn [length]; lia|].
  destruct (negb (bit D x)); cbn [length]; lia.
Qed.
Lemma level_off_le D p : (level (off D p) <= S (level D))%nat.
Proof.
  destruct (in_dec Nat.eq_dec p l) as [H|H]; [|rewrite level_off_out by exact H; lia].
  destruct (bit D p) eqn:B.
  - assert (E := level_on_in (off D p) p H). rewrite bit_off, Nat.eqb_refl, B in E. specialize (E eq_refl). rewrite (on_off_same D p B) in E. lia.
  - replace (off D p) with D; [lia|]. apply bits_eq. intros q. rewrite bit_off. destruct (Nat.eqb_spec p q); [subst; now rewrite B|]. now rewrite andb_true_r.
Qed.
Lemma level_max D : (level D <= length l)%nat.
Proof. unfold level. clear. induction l as [|x r IH]; cbn [filter length]; [lia|]. destruct (negb _); cbn [length]; lia. Qed.
Lemma level_ref : level (occupied l) = 0%nat.
Proof.
  unfold level. replace (filter _ l) with (@nil nat); [reflexivity|]. symmetry.
  assert (G : forall r, (forall q, In q r -> In q l) -> filter (fun q => negb (bit (occupied l) q)) r = []).
  { induction r as [|x r IH]; intros H; [reflexivity|]. cbn [filter]. rewrite bit_occupied. replace (existsb (Nat.eqb x) l) with true.
    - cbn [negb]. apply IH. intros q Hq. apply H. now right.
    - symmetry. apply existsb_exists. exists x. split; [apply H; now left|apply Nat.eqb_refl]. }
  now apply G.
Qed.

Definition vanish (k : nat) (psi : state) : Prop := forall D, (level D < k)%nat -> psi D = 0.
Lemma vanish_le k m psi : (k <= m)%nat -> vanish m psi -> vanish k psi.
Proof. intros L H D HD. apply H. lia. Qed.
Lemma vanish_ann k q psi : vanish k psi -> vanish k (ann q psi).
Proof. intros H D HD. unfold ann. destruct (bit D q); [reflexivity|]. rewrite H; [ring|]. assert (L := level_on_le D q). lia. Qed.
Lemma vanish_ann_occ k q psi : In q l -> vanish k psi -> vanish (S k) (ann q psi).
Proof. intros Hq H D HD. unfold ann. destruct (bit D q) eqn:B; [reflexivity|]. rewrite H; [ring|]. assert (L := level_on_in D q Hq B). lia. Qed.
Lemma vanish_cre k p psi : vanish (S k) psi -> vanish k (cre p psi).
Proof. intros H D HD. unfold cre. destruct (bit D p); [|reflexivity]. rewrite H; [ring|]. assert (L := level_off_le D p). lia. Qed.
Lemma vanish_cre_virt k p psi : ~ In p l -> vanish k psi -> vanish k (cre p psi).
Proof. intros Hp H D HD. unfold cre. destruct (bit D p); [|reflexivity]. rewrite H; [ring|]. now rewrite level_off_out. Qed.
Lemma vanish_sum k n (f : nat -> state) : (forall i, (i < n)%nat -> vanish k (f i)) -> vanish k (fun D => sumn n (fun i => f i D)).
Proof. intros H D HD. apply sumn_0. intros i Hi. now apply H. Qed.
Lemma vanish_scal k c f : vanish k f -> vanish k (fun D => c * f D).
Proof. intros H D HD. rewrite H by exact HD. ring. Qed.
Lemma vanish_add k f g : vanish k f -> vanish k g -> vanish k (fun D => f D + g D).
Proof. intros H G D HD. rewrite H, G by exact HD. ring. Qed.
Lemma vanish_exc X : exc (fun q => In q l) X -> forall k psi, vanish k psi -> vanish (S k) (X psi).
Proof.
  induction 1 as [p q Hp Hq|X Y _ IX _ IY|c X _ IX|n F _ IF|X Y _ IX _ IY]; intros k psi H.
  - apply vanish_cre_virt; [exact Hp|]. now apply vanish_ann_occ.
  - apply (vanish_le (S k) (S (S k))); [lia|]. apply IX. now apply IY.
  - apply vanish_scal. now apply IX.
  - apply vanish_sum. intros i Hi. now apply IF.
  - apply vanish_add; [now apply IX|now apply IY].
Qed.
Lemma vanish_power X k : exc (fun q => In q l) X -> forall psi, vanish k (power X k psi).
Proof. intros H psi. induction k as [|k IH]; [intros D HD; lia|]. rewrite power_S. now apply vanish_exc. Qed.
Lemma vanish_one_body k n h so psi : vanish (S k) psi -> vanish k (one_body n h so psi).
Proof.
  intros H. apply vanish_sum. intros p _. apply vanish_sum. intros q _. apply vanish_scal. apply vanish_cre. now apply vanish_ann.
Qed.
Lemma vanish_two_body k n w s1 s2 psi : vanish (S (S k)) psi -> vanish k (two_body n w s1 s2 psi).
Proof.
  intros H. apply vanish_sum. intros p _. apply vanish_sum. intros q _. apply vanish_sum. intros r _. apply vanish_sum. intros s _. apply vanish_scal.
  do 2 apply vanish_cre. now do 2 apply vanish_ann.
Qed.
Lemma vanish_hamiltonian k n I psi : vanish (S (S k)) psi -> vanish k (hamiltonian n I psi).
Proof.
  intros H. assert (H' : vanish (S k) psi) by (apply (vanish_le _ (S (S k))); [lia|exact H]).
  repeat apply vanish_add; try (apply vanish_scal); try (now apply vanish_one_body); now apply vanish_two_body.
Qed.
End L.

Lemma ref_nodup na nb : NoDup (map al (seq 0 na) ++ map be (seq 0 nb)).
Proof.
  assert (A : forall f : nat -> nat, (forall x y, f x = f y -> x = y) -> forall k, NoDup (map f (seq 0 k))) by (intros f Hf k; apply FinFun.Injective_map_NoDup; [exact Hf|apply seq_NoDup]).
  assert (G : forall a b : list nat, NoDup a -> NoDup b -> (forall x, In x a -> ~ In x b) -> NoDup (a ++ b)).
  { induction a as [|x a IH]; intros b Ha Hb Hd; [exact Hb|]. inversion Ha; subst. cbn [app]. constructor.
    - rewrite in_app_iff. intros [C|C]; [contradiction|]. apply (Hd x (or_introl eq_refl) C).
    - apply IH; auto. intros y Hy. apply Hd. now right. }
  apply G; [apply A; unfold al; lia|apply A; unfold be; lia|].
  intros x Hx Hy. apply in_map_iff in Hx as (u & <- & _). apply in_map_iff in Hy as (w & E & _). unfold al, be in E. lia.
Qed.
Lemma hamiltonian_linear n I : linear (hamiltonian n I).
Proof.
  assert (P : forall p q, linear (fun psi => cre p (ann q psi))) by (intros; apply comp_linear; [apply cre_linear|apply ann_linear]).
  assert (O : forall h so, linear (one_body n h so)).
  { intros h so. unfold one_body. apply (sum_linear n (fun p psi D => sumn n (fun q => h p q * cre (so p) (ann (so q) psi) D))). intros p _.
    apply (sum_linear n (fun q psi D => h p q * cre (so p) (ann (so q) psi) D)). intros q _. apply (scal_linear (h p q) (fun psi => cre (so p) (ann (so q) psi))). apply P. }
  assert (W : forall w s1 s2, linear (two_body n w s1 s2)).
  { intros w s1 s2. unfold two_body. set (X := fun p q r s psi => cre (s1 p) (cre (s2 q) (ann (s2 s) (ann (s1 r) psi)))).
    apply (sum_linear n (fun p psi D => sumn n (fun q => sumn n (fun r => sumn n (fun s => w p q r s * X p q r s psi D))))). intros p _.
    apply (sum_linear n (fun q psi D => sumn n (fun r => sumn n (fun s => w p q r s * X p q r s psi D)))). intros q _.
    apply (sum_linear n (fun r psi D => sumn n (fun s => w p q r s * X p q r s psi D))). intros r _.
    apply (sum_linear n (fun s psi D => w p q r s * X p q r s psi D)). intros s _. apply scal_linear. unfold X.
    apply (comp_linear (cre (s1 p)) (fun psi => cre (s2 q) (ann (s2 s) (ann (s1 r) psi)))); [apply cre_linear|].
    apply (comp_linear (cre (s2 q)) (fun psi => ann (s2 s) (ann (s1 r) psi))); [apply cre_linear|].
    apply (comp_linear (ann (s2 s)) (ann (s1 r))); apply ann_linear. }
  unfold hamiltonian. repeat apply add_linear; try apply scal_linear; auto.
Qed.
