(** Vanishing on the determinants of a method = vanishing of the components along its strings (proof support). *)
From Coq Require Import Reals Arith NArith List Bool Btauto Lia Lra FunctionalExtensionality.
From Verif Require Import RSum IntegralsModel TensorObjs FockSpec FockCar FockCcSpec SectorModel FockSectorSpec FockFlip.
Import ListNotations.
Local Open Scope R_scope.
Section S.
Variables (d : dims) (n : nat) (W : state).
Hypothesis En : (noa d + nua d = n)%nat.
Hypothesis En' : (nob d + nub d = n)%nat.
Notation ref := (reference (noa d) (nob d)).
Ltac bb := rewrite ?bit_flip, ?ref_al, ?ref_be, ?eqb_al, ?eqb_be, ?eqb_ab, ?eqb_ba, ?xorb_false_r in *.
Ltac bcase := bb; repeat match goal with
  | |- context [Nat.ltb ?a ?b] => destruct (Nat.ltb_spec a b)
  | |- context [Nat.eqb ?a ?b] => destruct (Nat.eqb_spec a b)
  | H : context [Nat.ltb ?a ?b] |- _ => destruct (Nat.ltb_spec a b)
  | H : context [Nat.eqb ?a ?b] |- _ => destruct (Nat.eqb_spec a b) end; cbn [xorb] in *; try reflexivity; try discriminate; try (exfalso; lia); try lia; try (split; lia).
Ltac nd H := cbn [map snd] in H; repeat (apply NoDup_cons_iff in H as [? H]); cbn [In] in *; unfold oa, ob, va, vb in *; unfold al, be in *.
Ltac ndp := cbn [map snd]; repeat apply NoDup_cons; try apply NoDup_nil; cbn [In]; unfold oa, ob, va, vb; unfold al, be; lia.
Ltac fitst := let c := fresh "c" in let p := fresh "p" in let G := fresh "G" in intros c p G; cbn [In] in G;
  repeat (destruct G as [G|G]; [injection G as <- <-; unfold oa, ob, va, vb; bcase|]); destruct G.
(* a string component from the determinant, and back *)
Ltac use H := let E := fresh "E" in assert (E := H); rewrite str_zero in E by fitst; cbn [map snd] in E; etransitivity; [|apply E; ndp]; f_equal; unfold oa, ob, va, vb; feq.

Lemma split_a p : (p < n)%nat -> (noa d <= p)%nat -> exists a, (a < nua d)%nat /\ p = (noa d + a)%nat.
Proof. intros H1 H2. exists (p - noa d)%nat. lia. Qed.
Lemma split_b p : (p < n)%nat -> (nob d <= p)%nat -> exists a, (a < nub d)%nat /\ p = (nob d + a)%nat.
Proof. intros H1 H2. exists (p - nob d)%nat. lia. Qed.

Lemma ip_flat : (forall D, ip_space n ref D -> W D = 0) <->
  (forall i, (i < noa d)%nat -> str [(true, oa i)] W ref = 0) /\
  (forall i b j, (i < noa d)%nat -> (b < nua d)%nat -> (j < noa d)%nat -> str [(true, oa i); (true, oa j); (false, va d b)] W ref = 0) /\
  (forall i b j, (i < noa d)%nat -> (b < nub d)%nat -> (j < nob d)%nat -> str [(true, oa i); (true, ob j); (false, vb d b)] W ref = 0).
Proof.
  split.
  - intros H. split; [|split].
    + intros i Hi. apply str_zero; [fitst|]. intros ND. cbn [map snd flips fold_left]. apply H. exists (flip ref (oa i)). split; [|now left].
      apply taken_flip. exists i. split; [lia|]. split; [unfold oa; bcase|reflexivity].
    + intros i b j Hi Hb Hj. apply str_zero; [fitst|]. intros ND. cbn [map snd flips fold_left]. apply H. exists (flip ref (oa i)).
      split; [apply taken_flip; exists i; split; [lia|]; split; [unfold oa; bcase|reflexivity]|right].
      apply moved_flip. exists al, j, (noa d + b)%nat. split; [now left|]. split; [lia|]. split; [lia|]. nd ND. fold (al i) (al j) (al (noa d + b)%nat).
      split; [bcase|]. split; [bcase|reflexivity].
    + intros i b j Hi Hb Hj. apply str_zero; [fitst|]. intros ND. cbn [map snd flips fold_left]. apply H. exists (flip ref (oa i)).
      split; [apply taken_flip; exists i; split; [lia|]; split; [unfold oa; bcase|reflexivity]|right].
      apply moved_flip. exists be, j, (nob d + b)%nat. split; [now right|]. split; [lia|]. split; [lia|]. unfold oa, ob, vb.
      split; [bcase|]. split; [bcase|reflexivity].
  - intros (H1 & H2 & H3) D (D1 & HT & HM). apply taken_flip in HT as (i & Hi & B & ->). assert (Hi' : (i < noa d)%nat) by bcase.
    destruct HM as [->|HM]; [use (H1 i Hi')|]. apply moved_flip in HM as (so & p & q & [->| ->] & Hp & Hq & B1 & B2 & ->).
    + assert (Hp' : (p < noa d)%nat /\ p <> i) by bcase. destruct (Nat.eq_dec q i) as [->|NE]; [use (H1 p (proj1 Hp'))|].
      assert (Hq' : (noa d <= q)%nat) by bcase. destruct (split_a q Hq Hq') as (b & Hb & ->). use (H2 i b p Hi' Hb (proj1 Hp')).
    + assert (Hp' : (p < nob d)%nat) by bcase. assert (Hq' : (nob d <= q)%nat) by bcase. destruct (split_b q Hq Hq') as (b & Hb & ->). use (H3 i b p Hi' Hb Hp').
Qed.

Ltac tk := apply taken_flip; eexists; split; [|split; [|reflexivity]]; [lia|bcase].
Ltac pt := apply put_flip; eexists; split; [|split; [|reflexivity]]; [lia|bcase].
Ltac unf := unfold oa, ob, va, vb.
Ltac nds H := cbn [map snd] in H; repeat (apply NoDup_cons_iff in H as [? H]); cbn [In] in *; unfold oa, ob, va, vb in *; repeat match goal with X : ~ _ |- _ => progress (unfold al, be in X) end.
Ltac start := apply str_zero; [fitst|]; let ND := fresh "ND" in intros ND; match goal with H : forall D, _ -> W D = 0 |- _ => apply H end; nds ND; cbn [map snd flips fold_left].
Ltac mv s p0 q0 := right; apply moved_flip; exists s, p0, q0; split; [tauto|]; split; [lia|]; split; [lia|]; split; [bcase|]; split; [bcase|feq].

Lemma ea_flat : (forall D, ea_space n ref D -> W D = 0) <->
  (forall a, (a < nua d)%nat -> str [(false, va d a)] W ref = 0) /\
  (forall a b j, (a < nua d)%nat -> (b < nua d)%nat -> (j < noa d)%nat -> str [(true, oa j); (false, va d b); (false, va d a)] W ref = 0) /\
  (forall a b j, (a < nua d)%nat -> (b < nub d)%nat -> (j < nob d)%nat -> str [(true, ob j); (false, vb d b); (false, va d a)] W ref = 0).
Proof.
  split.
  - intros H. split; [|split].
    + intros a Ha. start. exists (flip ref (al (noa d + a))). split; [pt|left; feq].
    + intros a b j Ha Hb Hj. start. exists (flip ref (al (noa d + a))). split; [pt|]. fold (al j) (al (noa d + a)%nat) (al (noa d + b)%nat). mv al j (noa d + b)%nat.
    + intros a b j Ha Hb Hj. start. exists (flip ref (al (noa d + a))). split; [pt|]. fold (be j) (al (noa d + a)%nat) (be (nob d + b)%nat). mv be j (nob d + b)%nat.
  - intros (H1 & H2 & H3) D (D1 & HT & HM). apply put_flip in HT as (p0 & Hp0 & B & ->). assert (X : (noa d <= p0)%nat) by bcase. destruct (split_a p0 Hp0 X) as (a & Ha & ->).
    destruct HM as [->|HM]; [use (H1 a Ha)|]. apply moved_flip in HM as (so & p & q & [->| ->] & Hp & Hq & B1 & B2 & ->).
    + assert (Hq' : (noa d <= q)%nat /\ q <> (noa d + a)%nat) by bcase. destruct (split_a q Hq (proj1 Hq')) as (b & Hb & ->).
      destruct (Nat.eq_dec p (noa d + a)) as [->|NE]; [use (H1 b Hb)|]. assert (Hp' : (p < noa d)%nat) by bcase. use (H2 a b p Ha Hb Hp').
    + assert (Hp' : (p < nob d)%nat) by bcase. assert (Hq' : (nob d <= q)%nat) by bcase. destruct (split_b q Hq Hq') as (b & Hb & ->). use (H3 a b p Ha Hb Hp').
Qed.
Lemma sf_flat : (forall D, sf_space n ref D -> W D = 0) <->
  (forall a i, (a < nub d)%nat -> (i < noa d)%nat -> str [(true, oa i); (false, vb d a)] W ref = 0) /\
  (forall a b i j, (a < nua d)%nat -> (b < nub d)%nat -> (i < noa d)%nat -> (j < noa d)%nat -> str [(true, oa i); (true, oa j); (false, vb d b); (false, va d a)] W ref = 0) /\
  (forall a b i j, (a < nub d)%nat -> (b < nub d)%nat -> (i < nob d)%nat -> (j < noa d)%nat -> str [(true, ob i); (true, oa j); (false, vb d b); (false, vb d a)] W ref = 0).
Proof.
  split.
  - intros H. split; [|split].
    + intros a i Ha Hi. start. exists (flip ref (al i)), (flip (flip ref (al i)) (be (nob d + a))). split; [tk|]. split; [pt|left; feq].
    + intros a b i j Ha Hb Hi Hj. start. exists (flip ref (al i)), (flip (flip ref (al i)) (be (nob d + b))). split; [tk|]. split; [pt|].
      fold (al i) (al j) (al (noa d + a)%nat) (be (nob d + b)%nat). mv al j (noa d + a)%nat.
    + intros a b i j Ha Hb Hi Hj. start. exists (flip ref (al j)), (flip (flip ref (al j)) (be (nob d + b))). split; [tk|]. split; [pt|].
      fold (be i) (al j) (be (nob d + a)%nat) (be (nob d + b)%nat). mv be i (nob d + a)%nat.
  - intros (H1 & H2 & H3) D (D1 & D2 & HT & HP & HM). apply taken_flip in HT as (i & Hi & B & ->). assert (Hi' : (i < noa d)%nat) by bcase.
    apply put_flip in HP as (p0 & Hp0 & B0 & ->). assert (X : (nob d <= p0)%nat) by bcase. destruct (split_b p0 Hp0 X) as (a & Ha & ->).
    destruct HM as [->|HM]; [use (H1 a i Ha Hi')|]. apply moved_flip in HM as (so & p & q & [->| ->] & Hp & Hq & B1 & B2 & ->).
    + assert (Hp' : (p < noa d)%nat /\ p <> i) by bcase. destruct (Nat.eq_dec q i) as [->|NE]; [use (H1 a p Ha (proj1 Hp'))|].
      assert (Hq' : (noa d <= q)%nat) by bcase. destruct (split_a q Hq Hq') as (b & Hb & ->). use (H2 b a i p Hb Ha Hi' (proj1 Hp')).
    + assert (Hq' : (nob d <= q)%nat /\ q <> (nob d + a)%nat) by bcase. destruct (split_b q Hq (proj1 Hq')) as (b & Hb & ->).
      destruct (Nat.eq_dec p (nob d + a)) as [->|NE]; [use (H1 b i Hb Hi')|]. assert (Hp' : (p < nob d)%nat) by bcase. use (H3 b a p i Hb Ha Hp' Hi').
Qed.
Lemma dip_flat : (forall D, dip_space n ref D -> W D = 0) <->
  (forall i j, (i < noa d)%nat -> (j < nob d)%nat -> str [(true, oa i); (true, ob j)] W ref = 0) /\
  (forall i j c k, (i < noa d)%nat -> (j < nob d)%nat -> (c < nua d)%nat -> (k < noa d)%nat -> str [(true, oa i); (true, ob j); (true, oa k); (false, va d c)] W ref = 0) /\
  (forall i j c k, (i < noa d)%nat -> (j < nob d)%nat -> (c < nub d)%nat -> (k < nob d)%nat -> str [(true, oa i); (true, ob j); (true, ob k); (false, vb d c)] W ref = 0).
Proof.
  split.
  - intros H. split; [|split].
    + intros i j Hi Hj. start. exists (flip ref (al i)), (flip (flip ref (al i)) (be j)). split; [tk|]. split; [tk|left; feq].
    + intros i j c k Hi Hj Hc Hk. start. exists (flip ref (al i)), (flip (flip ref (al i)) (be j)). split; [tk|]. split; [tk|].
      fold (al i) (al k) (al (noa d + c)%nat) (be j). mv al k (noa d + c)%nat.
    + intros i j c k Hi Hj Hc Hk. start. exists (flip ref (al i)), (flip (flip ref (al i)) (be j)). split; [tk|]. split; [tk|].
      fold (al i) (be k) (be (nob d + c)%nat) (be j). mv be k (nob d + c)%nat.
  - intros (H1 & H2 & H3) D (D1 & D2 & HT & HP & HM). apply taken_flip in HT as (i & Hi & B & ->). assert (Hi' : (i < noa d)%nat) by bcase.
    apply taken_flip in HP as (j & Hj & B0 & ->). assert (Hj' : (j < nob d)%nat) by bcase.
    destruct HM as [->|HM]; [use (H1 i j Hi' Hj')|]. apply moved_flip in HM as (so & p & q & [->| ->] & Hp & Hq & B1 & B2 & ->).
    + assert (Hp' : (p < noa d)%nat /\ p <> i) by bcase. destruct (Nat.eq_dec q i) as [->|NE]; [use (H1 p j (proj1 Hp') Hj')|].
      assert (Hq' : (noa d <= q)%nat) by bcase. destruct (split_a q Hq Hq') as (b & Hb & ->). use (H2 i j b p Hi' Hj' Hb (proj1 Hp')).
    + assert (Hp' : (p < nob d)%nat /\ p <> j) by bcase. destruct (Nat.eq_dec q j) as [->|NE]; [use (H1 i p Hi' (proj1 Hp'))|].
      assert (Hq' : (nob d <= q)%nat) by bcase. destruct (split_b q Hq Hq') as (b & Hb & ->). use (H3 i j b p Hi' Hj' Hb (proj1 Hp')).
Qed.
Lemma dea2_flat : (forall D, dea2_space n ref D -> W D = 0) <->
  (forall a b, (a < nua d)%nat -> (b < nub d)%nat -> str [(false, vb d b); (false, va d a)] W ref = 0).
Proof.
  split.
  - intros H a b Ha Hb. start. exists (flip ref (al (noa d + a))). split; [pt|]. apply put_flip. exists (nob d + b)%nat. split; [lia|]. split; [bcase|feq].
  - intros H1 D (D1 & HT & HP). apply put_flip in HT as (p0 & Hp0 & B & ->). assert (X : (noa d <= p0)%nat) by bcase. destruct (split_a p0 Hp0 X) as (a & Ha & ->).
    apply put_flip in HP as (q0 & Hq0 & B0 & ->). assert (Y : (nob d <= q0)%nat) by bcase. destruct (split_b q0 Hq0 Y) as (b & Hb & ->). use (H1 a b Ha Hb).
Qed.
Lemma dea_flat : (forall D, dea_space n ref D -> W D = 0) <->
  (forall a b, (a < nua d)%nat -> (b < nub d)%nat -> str [(false, vb d b); (false, va d a)] W ref = 0) /\
  (forall a b c k, (a < nua d)%nat -> (b < nub d)%nat -> (c < nua d)%nat -> (k < noa d)%nat -> str [(true, oa k); (false, va d c); (false, vb d b); (false, va d a)] W ref = 0) /\
  (forall a b c k, (a < nua d)%nat -> (b < nub d)%nat -> (c < nub d)%nat -> (k < nob d)%nat -> str [(true, ob k); (false, vb d c); (false, vb d b); (false, va d a)] W ref = 0).
Proof.
  split.
  - intros H. split; [|split].
    + intros a b Ha Hb. start. exists (flip ref (al (noa d + a))), (flip (flip ref (al (noa d + a))) (be (nob d + b))). split; [pt|]. split; [pt|left; feq].
    + intros a b c k Ha Hb Hc Hk. start. exists (flip ref (al (noa d + a))), (flip (flip ref (al (noa d + a))) (be (nob d + b))). split; [pt|]. split; [pt|].
      fold (al k) (al (noa d + c)%nat) (al (noa d + a)%nat) (be (nob d + b)%nat). mv al k (noa d + c)%nat.
    + intros a b c k Ha Hb Hc Hk. start. exists (flip ref (al (noa d + a))), (flip (flip ref (al (noa d + a))) (be (nob d + b))). split; [pt|]. split; [pt|].
      fold (be k) (be (nob d + c)%nat) (al (noa d + a)%nat) (be (nob d + b)%nat). mv be k (nob d + c)%nat.
  - intros (H1 & H2 & H3) D (D1 & D2 & HT & HP & HM). apply put_flip in HT as (p0 & Hp0 & B & ->). assert (X : (noa d <= p0)%nat) by bcase. destruct (split_a p0 Hp0 X) as (a & Ha & ->).
    apply put_flip in HP as (q0 & Hq0 & B0 & ->). assert (Y : (nob d <= q0)%nat) by bcase. destruct (split_b q0 Hq0 Y) as (b & Hb & ->).
    destruct HM as [->|HM]; [use (H1 a b Ha Hb)|]. apply moved_flip in HM as (so & p & q & [->| ->] & Hp & Hq & B1 & B2 & ->).
    + assert (Hq' : (noa d <= q)%nat /\ q <> (noa d + a)%nat) by bcase. destruct (split_a q Hq (proj1 Hq')) as (c & Hc & ->).
      destruct (Nat.eq_dec p (noa d + a)) as [->|NE]; [use (H1 c b Hc Hb)|]. assert (Hp' : (p < noa d)%nat) by bcase. use (H2 a b c p Ha Hb Hc Hp').
    + assert (Hq' : (nob d <= q)%nat /\ q <> (nob d + b)%nat) by bcase. destruct (split_b q Hq (proj1 Hq')) as (c & Hc & ->).
      destruct (Nat.eq_dec p (nob d + b)) as [->|NE]; [use (H1 a c Ha Hc)|]. assert (Hp' : (p < nob d)%nat) by bcase. use (H3 a b c p Ha Hb Hc Hp').
Qed.
Lemma tea_flat : (forall D, tea_space n ref D -> W D = 0) <->
  (forall a b c, (a < nua d)%nat -> (b < nua d)%nat -> (c < nub d)%nat -> str [(false, vb d c); (false, va d b); (false, va d a)] W ref = 0).
Proof.
  split.
  - intros H a b c Ha Hb Hc. start. fold (al (noa d + a)%nat) (al (noa d + b)%nat) (be (nob d + c)%nat).
    exists (flip ref (al (noa d + a))), (flip (flip ref (al (noa d + a))) (al (noa d + b))). split; [pt|]. split; [pt|]. apply put_flip. exists (nob d + c)%nat. split; [lia|]. split; [bcase|feq].
  - intros H1 D (D1 & D2 & HT & HQ & HP). apply put_flip in HT as (p0 & Hp0 & B & ->). assert (X : (noa d <= p0)%nat) by bcase. destruct (split_a p0 Hp0 X) as (a & Ha & ->).
    apply put_flip in HQ as (r0 & Hr0 & B1 & ->). assert (Z : (noa d <= r0)%nat /\ r0 <> (noa d + a)%nat) by bcase. destruct (split_a r0 Hr0 (proj1 Z)) as (b & Hb & ->).
    apply put_flip in HP as (q0 & Hq0 & B0 & ->). assert (Y : (nob d <= q0)%nat) by bcase. destruct (split_b q0 Hq0 Y) as (c & Hc & ->). use (H1 a b c Ha Hb Hc).
Qed.
End S.
