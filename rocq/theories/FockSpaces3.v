(** Generated by tools/gen_sec3fock.py: the determinants of each method as strings on the reference (proof support). *)
From Coq Require Import Reals Arith NArith List Bool Lia.
From Verif Require Import RSum IntegralsModel TensorObjs FockSpec FockCar FockCcSpec FockSectorSpec RankSpec Sector3Model Sector3Spec FockFlip FockCount.
Import ListNotations.
Local Open Scope nat_scope.
Section F.
Variables (d : dims) (n : nat) (W : state).
Hypothesis En : noa d + nua d = n.
Hypothesis En' : nob d + nub d = n.
Notation ref := (reference (noa d) (nob d)).
Lemma ipt_flat : (forall D, ipt_space d n D -> W D = 0%R) <-> (
  (forall i, (i < noa d) -> str [(true, oa i)] W ref = 0%R) /\
  (forall i a j, (i < noa d) -> (a < nua d) -> (j < noa d) -> str [(true, oa i); (true, oa j); (false, va d a)] W ref = 0%R) /\
  (forall i a j, (i < noa d) -> (a < nub d) -> (j < nob d) -> str [(true, oa i); (true, ob j); (false, vb d a)] W ref = 0%R) /\
  (forall i a b j k, (i < noa d) -> (a < nua d) -> (b < nua d) -> (j < noa d) -> (k < noa d) -> str [(true, oa i); (true, oa j); (true, oa k); (false, va d b); (false, va d a)] W ref = 0%R) /\
  (forall i a b j k, (i < noa d) -> (a < nua d) -> (b < nub d) -> (j < noa d) -> (k < nob d) -> str [(true, oa i); (true, oa j); (true, ob k); (false, vb d b); (false, va d a)] W ref = 0%R) /\
  (forall i a b j k, (i < noa d) -> (a < nub d) -> (b < nub d) -> (j < nob d) -> (k < nob d) -> str [(true, oa i); (true, ob j); (true, ob k); (false, vb d b); (false, vb d a)] W ref = 0%R)).
Proof.
  unfold ipt_space. rewrite (sector_flat d n En En'). split.
  - intros H. split; [|split; [|split; [|split; [|split; [|]]]]]; intros.
    + down H [i] (@nil nat) (@nil nat) (@nil nat).
    + down H [i; j] [a] (@nil nat) (@nil nat).
    + down H [i] (@nil nat) [j] [a].
    + down H [i; j; k] [a; b] (@nil nat) (@nil nat).
    + down H [i; j] [a] [k] [b].
    + down H [i] (@nil nat) [j; k] [a; b].
  - intros (F0 & F1 & F2 & F3 & F4 & F5) Ha Pa Hb Pb HW C1 C2 C3. assert (HW' := HW). destruct HW' as ((_ & A1) & (_ & A2) & (_ & A3) & (_ & A4)).
    destruct Ha as [|i0 [|i1 [|i2 [|? ?]]]]; destruct Hb as [|j0 [|j1 [|? ?]]]; cbn [length] in C1, C2, C3; try (exfalso; lia);
      destruct Pa as [|a0 [|a1 [|? ?]]]; cbn [length] in C1; try (exfalso; lia); destruct Pb as [|b0 [|b1 [|? ?]]]; cbn [length] in C2; try (exfalso; lia); cbn [In] in *;
      lazymatch goal with
      | |- context [lst _ [?i] (@nil nat) (@nil nat) (@nil nat)] => ups (F0 i ltac:(apply A1; tauto))
      | |- context [lst _ [?i; ?j] [?a] (@nil nat) (@nil nat)] => ups (F1 i a j ltac:(apply A1; tauto) ltac:(apply A2; tauto) ltac:(apply A1; tauto))
      | |- context [lst _ [?i] (@nil nat) [?j] [?a]] => ups (F2 i a j ltac:(apply A1; tauto) ltac:(apply A4; tauto) ltac:(apply A3; tauto))
      | |- context [lst _ [?i; ?j; ?k] [?a; ?b] (@nil nat) (@nil nat)] => ups (F3 i a b j k ltac:(apply A1; tauto) ltac:(apply A2; tauto) ltac:(apply A2; tauto) ltac:(apply A1; tauto) ltac:(apply A1; tauto))
      | |- context [lst _ [?i; ?j] [?a] [?k] [?b]] => ups (F4 i a b j k ltac:(apply A1; tauto) ltac:(apply A2; tauto) ltac:(apply A4; tauto) ltac:(apply A1; tauto) ltac:(apply A3; tauto))
      | |- context [lst _ [?i] (@nil nat) [?j; ?k] [?a; ?b]] => ups (F5 i a b j k ltac:(apply A1; tauto) ltac:(apply A4; tauto) ltac:(apply A4; tauto) ltac:(apply A3; tauto) ltac:(apply A3; tauto))
      end.
Qed.
Lemma eat_flat : (forall D, eat_space d n D -> W D = 0%R) <-> (
  (forall a, (a < nua d) -> str [(false, va d a)] W ref = 0%R) /\
  (forall a b i, (a < nua d) -> (b < nua d) -> (i < noa d) -> str [(true, oa i); (false, va d b); (false, va d a)] W ref = 0%R) /\
  (forall a b i, (a < nua d) -> (b < nub d) -> (i < nob d) -> str [(true, ob i); (false, vb d b); (false, va d a)] W ref = 0%R) /\
  (forall a b c i j, (a < nua d) -> (b < nua d) -> (c < nua d) -> (i < noa d) -> (j < noa d) -> str [(true, oa i); (true, oa j); (false, va d c); (false, va d b); (false, va d a)] W ref = 0%R) /\
  (forall a b c i j, (a < nua d) -> (b < nua d) -> (c < nub d) -> (i < noa d) -> (j < nob d) -> str [(true, oa i); (true, ob j); (false, vb d c); (false, va d b); (false, va d a)] W ref = 0%R) /\
  (forall a b c i j, (a < nua d) -> (b < nub d) -> (c < nub d) -> (i < nob d) -> (j < nob d) -> str [(true, ob i); (true, ob j); (false, vb d c); (false, vb d b); (false, va d a)] W ref = 0%R)).
Proof.
  unfold eat_space. rewrite (sector_flat d n En En'). split.
  - intros H. split; [|split; [|split; [|split; [|split; [|]]]]]; intros.
    + down H (@nil nat) [a] (@nil nat) (@nil nat).
    + down H [i] [a; b] (@nil nat) (@nil nat).
    + down H (@nil nat) [a] [i] [b].
    + down H [i; j] [a; b; c] (@nil nat) (@nil nat).
    + down H [i] [a; b] [j] [c].
    + down H (@nil nat) [a] [i; j] [b; c].
  - intros (F0 & F1 & F2 & F3 & F4 & F5) Ha Pa Hb Pb HW C1 C2 C3. assert (HW' := HW). destruct HW' as ((_ & A1) & (_ & A2) & (_ & A3) & (_ & A4)).
    destruct Ha as [|i0 [|i1 [|? ?]]]; destruct Hb as [|j0 [|j1 [|? ?]]]; cbn [length] in C1, C2, C3; try (exfalso; lia);
      destruct Pa as [|a0 [|a1 [|a2 [|? ?]]]]; cbn [length] in C1; try (exfalso; lia); destruct Pb as [|b0 [|b1 [|? ?]]]; cbn [length] in C2; try (exfalso; lia); cbn [In] in *;
      lazymatch goal with
      | |- context [lst _ (@nil nat) [?a] (@nil nat) (@nil nat)] => ups (F0 a ltac:(apply A2; tauto))
      | |- context [lst _ [?i] [?a; ?b] (@nil nat) (@nil nat)] => ups (F1 a b i ltac:(apply A2; tauto) ltac:(apply A2; tauto) ltac:(apply A1; tauto))
      | |- context [lst _ (@nil nat) [?a] [?i] [?b]] => ups (F2 a b i ltac:(apply A2; tauto) ltac:(apply A4; tauto) ltac:(apply A3; tauto))
      | |- context [lst _ [?i; ?j] [?a; ?b; ?c] (@nil nat) (@nil nat)] => ups (F3 a b c i j ltac:(apply A2; tauto) ltac:(apply A2; tauto) ltac:(apply A2; tauto) ltac:(apply A1; tauto) ltac:(apply A1; tauto))
      | |- context [lst _ [?i] [?a; ?b] [?j] [?c]] => ups (F4 a b c i j ltac:(apply A2; tauto) ltac:(apply A2; tauto) ltac:(apply A4; tauto) ltac:(apply A1; tauto) ltac:(apply A3; tauto))
      | |- context [lst _ (@nil nat) [?a] [?i; ?j] [?b; ?c]] => ups (F5 a b c i j ltac:(apply A2; tauto) ltac:(apply A4; tauto) ltac:(apply A4; tauto) ltac:(apply A3; tauto) ltac:(apply A3; tauto))
      end.
Qed.
Lemma dipq_flat : (forall D, dipq_space d n D -> W D = 0%R) <-> (
  (forall i j, (i < noa d) -> (j < nob d) -> str [(true, oa i); (true, ob j)] W ref = 0%R) /\
  (forall i j a k, (i < noa d) -> (j < nob d) -> (a < nua d) -> (k < noa d) -> str [(true, oa i); (true, ob j); (true, oa k); (false, va d a)] W ref = 0%R) /\
  (forall i j a k, (i < noa d) -> (j < nob d) -> (a < nub d) -> (k < nob d) -> str [(true, oa i); (true, ob j); (true, ob k); (false, vb d a)] W ref = 0%R) /\
  (forall i j a b k l, (i < noa d) -> (j < nob d) -> (a < nua d) -> (b < nua d) -> (k < noa d) -> (l < noa d) -> str [(true, oa i); (true, ob j); (true, oa k); (true, oa l); (false, va d b); (false, va d a)] W ref = 0%R) /\
  (forall i j a b k l, (i < noa d) -> (j < nob d) -> (a < nua d) -> (b < nub d) -> (k < noa d) -> (l < nob d) -> str [(true, oa i); (true, ob j); (true, oa k); (true, ob l); (false, vb d b); (false, va d a)] W ref = 0%R) /\
  (forall i j a b k l, (i < noa d) -> (j < nob d) -> (a < nub d) -> (b < nub d) -> (k < nob d) -> (l < nob d) -> str [(true, oa i); (true, ob j); (true, ob k); (true, ob l); (false, vb d b); (false, vb d a)] W ref = 0%R)).
Proof.
  unfold dipq_space. rewrite (sector_flat d n En En'). split.
  - intros H. split; [|split; [|split; [|split; [|split; [|]]]]]; intros.
    + down H [i] (@nil nat) [j] (@nil nat).
    + down H [i; k] [a] [j] (@nil nat).
    + down H [i] (@nil nat) [j; k] [a].
    + down H [i; k; l] [a; b] [j] (@nil nat).
    + down H [i; k] [a] [j; l] [b].
    + down H [i] (@nil nat) [j; k; l] [a; b].
  - intros (F0 & F1 & F2 & F3 & F4 & F5) Ha Pa Hb Pb HW C1 C2 C3. assert (HW' := HW). destruct HW' as ((_ & A1) & (_ & A2) & (_ & A3) & (_ & A4)).
    destruct Ha as [|i0 [|i1 [|i2 [|? ?]]]]; destruct Hb as [|j0 [|j1 [|j2 [|? ?]]]]; cbn [length] in C1, C2, C3; try (exfalso; lia);
      destruct Pa as [|a0 [|a1 [|? ?]]]; cbn [length] in C1; try (exfalso; lia); destruct Pb as [|b0 [|b1 [|? ?]]]; cbn [length] in C2; try (exfalso; lia); cbn [In] in *;
      lazymatch goal with
      | |- context [lst _ [?i] (@nil nat) [?j] (@nil nat)] => ups (F0 i j ltac:(apply A1; tauto) ltac:(apply A3; tauto))
      | |- context [lst _ [?i; ?k] [?a] [?j] (@nil nat)] => ups (F1 i j a k ltac:(apply A1; tauto) ltac:(apply A3; tauto) ltac:(apply A2; tauto) ltac:(apply A1; tauto))
      | |- context [lst _ [?i] (@nil nat) [?j; ?k] [?a]] => ups (F2 i j a k ltac:(apply A1; tauto) ltac:(apply A3; tauto) ltac:(apply A4; tauto) ltac:(apply A3; tauto))
      | |- context [lst _ [?i; ?k; ?l] [?a; ?b] [?j] (@nil nat)] => ups (F3 i j a b k l ltac:(apply A1; tauto) ltac:(apply A3; tauto) ltac:(apply A2; tauto) ltac:(apply A2; tauto) ltac:(apply A1; tauto) ltac:(apply A1; tauto))
      | |- context [lst _ [?i; ?k] [?a] [?j; ?l] [?b]] => ups (F4 i j a b k l ltac:(apply A1; tauto) ltac:(apply A3; tauto) ltac:(apply A2; tauto) ltac:(apply A4; tauto) ltac:(apply A1; tauto) ltac:(apply A3; tauto))
      | |- context [lst _ [?i] (@nil nat) [?j; ?k; ?l] [?a; ?b]] => ups (F5 i j a b k l ltac:(apply A1; tauto) ltac:(apply A3; tauto) ltac:(apply A4; tauto) ltac:(apply A4; tauto) ltac:(apply A3; tauto) ltac:(apply A3; tauto))
      end.
Qed.
Lemma deaq_flat : (forall D, deaq_space d n D -> W D = 0%R) <-> (
  (forall a b, (a < nua d) -> (b < nub d) -> str [(false, vb d b); (false, va d a)] W ref = 0%R) /\
  (forall a b c i, (a < nua d) -> (b < nub d) -> (c < nua d) -> (i < noa d) -> str [(true, oa i); (false, va d c); (false, vb d b); (false, va d a)] W ref = 0%R) /\
  (forall a b c i, (a < nua d) -> (b < nub d) -> (c < nub d) -> (i < nob d) -> str [(true, ob i); (false, vb d c); (false, vb d b); (false, va d a)] W ref = 0%R) /\
  (forall a b c e i j, (a < nua d) -> (b < nub d) -> (c < nua d) -> (e < nua d) -> (i < noa d) -> (j < noa d) -> str [(true, oa i); (true, oa j); (false, va d e); (false, va d c); (false, vb d b); (false, va d a)] W ref = 0%R) /\
  (forall a b c e i j, (a < nua d) -> (b < nub d) -> (c < nua d) -> (e < nub d) -> (i < noa d) -> (j < nob d) -> str [(true, oa i); (true, ob j); (false, vb d e); (false, va d c); (false, vb d b); (false, va d a)] W ref = 0%R) /\
  (forall a b c e i j, (a < nua d) -> (b < nub d) -> (c < nub d) -> (e < nub d) -> (i < nob d) -> (j < nob d) -> str [(true, ob i); (true, ob j); (false, vb d e); (false, vb d c); (false, vb d b); (false, va d a)] W ref = 0%R)).
Proof.
  unfold deaq_space. rewrite (sector_flat d n En En'). split.
  - intros H. split; [|split; [|split; [|split; [|split; [|]]]]]; intros.
    + down H (@nil nat) [a] (@nil nat) [b].
    + down H [i] [a; c] (@nil nat) [b].
    + down H (@nil nat) [a] [i] [b; c].
    + down H [i; j] [a; c; e] (@nil nat) [b].
    + down H [i] [a; c] [j] [b; e].
    + down H (@nil nat) [a] [i; j] [b; c; e].
  - intros (F0 & F1 & F2 & F3 & F4 & F5) Ha Pa Hb Pb HW C1 C2 C3. assert (HW' := HW). destruct HW' as ((_ & A1) & (_ & A2) & (_ & A3) & (_ & A4)).
    destruct Ha as [|i0 [|i1 [|? ?]]]; destruct Hb as [|j0 [|j1 [|? ?]]]; cbn [length] in C1, C2, C3; try (exfalso; lia);
      destruct Pa as [|a0 [|a1 [|a2 [|? ?]]]]; cbn [length] in C1; try (exfalso; lia); destruct Pb as [|b0 [|b1 [|b2 [|? ?]]]]; cbn [length] in C2; try (exfalso; lia); cbn [In] in *;
      lazymatch goal with
      | |- context [lst _ (@nil nat) [?a] (@nil nat) [?b]] => ups (F0 a b ltac:(apply A2; tauto) ltac:(apply A4; tauto))
      | |- context [lst _ [?i] [?a; ?c] (@nil nat) [?b]] => ups (F1 a b c i ltac:(apply A2; tauto) ltac:(apply A4; tauto) ltac:(apply A2; tauto) ltac:(apply A1; tauto))
      | |- context [lst _ (@nil nat) [?a] [?i] [?b; ?c]] => ups (F2 a b c i ltac:(apply A2; tauto) ltac:(apply A4; tauto) ltac:(apply A4; tauto) ltac:(apply A3; tauto))
      | |- context [lst _ [?i; ?j] [?a; ?c; ?e] (@nil nat) [?b]] => ups (F3 a b c e i j ltac:(apply A2; tauto) ltac:(apply A4; tauto) ltac:(apply A2; tauto) ltac:(apply A2; tauto) ltac:(apply A1; tauto) ltac:(apply A1; tauto))
      | |- context [lst _ [?i] [?a; ?c] [?j] [?b; ?e]] => ups (F4 a b c e i j ltac:(apply A2; tauto) ltac:(apply A4; tauto) ltac:(apply A2; tauto) ltac:(apply A4; tauto) ltac:(apply A1; tauto) ltac:(apply A3; tauto))
      | |- context [lst _ (@nil nat) [?a] [?i; ?j] [?b; ?c; ?e]] => ups (F5 a b c e i j ltac:(apply A2; tauto) ltac:(apply A4; tauto) ltac:(apply A4; tauto) ltac:(apply A4; tauto) ltac:(apply A3; tauto) ltac:(apply A3; tauto))
      end.
Qed.
Lemma sft_flat : (forall D, sft_space d n D -> W D = 0%R) <-> (
  (forall a i, (a < nub d) -> (i < noa d) -> str [(true, oa i); (false, vb d a)] W ref = 0%R) /\
  (forall a b i j, (a < nua d) -> (b < nub d) -> (i < noa d) -> (j < noa d) -> str [(true, oa i); (true, oa j); (false, vb d b); (false, va d a)] W ref = 0%R) /\
  (forall a b i j, (a < nub d) -> (b < nub d) -> (i < nob d) -> (j < noa d) -> str [(true, ob i); (true, oa j); (false, vb d b); (false, vb d a)] W ref = 0%R) /\
  (forall a b c i j k, (a < nua d) -> (b < nua d) -> (c < nub d) -> (i < noa d) -> (j < noa d) -> (k < noa d) -> str [(true, oa i); (true, oa j); (true, oa k); (false, vb d c); (false, va d b); (false, va d a)] W ref = 0%R) /\
  (forall a b c i j k, (a < nua d) -> (b < nub d) -> (c < nub d) -> (i < noa d) -> (j < nob d) -> (k < noa d) -> str [(true, oa i); (true, ob j); (true, oa k); (false, vb d c); (false, vb d b); (false, va d a)] W ref = 0%R) /\
  (forall a b c i j k, (a < nub d) -> (b < nub d) -> (c < nub d) -> (i < nob d) -> (j < nob d) -> (k < noa d) -> str [(true, ob i); (true, ob j); (true, oa k); (false, vb d c); (false, vb d b); (false, vb d a)] W ref = 0%R)).
Proof.
  unfold sft_space. rewrite (sector_flat d n En En'). split.
  - intros H. split; [|split; [|split; [|split; [|split; [|]]]]]; intros.
    + down H [i] (@nil nat) (@nil nat) [a].
    + down H [i; j] [a] (@nil nat) [b].
    + down H [j] (@nil nat) [i] [a; b].
    + down H [i; j; k] [a; b] (@nil nat) [c].
    + down H [i; k] [a] [j] [b; c].
    + down H [k] (@nil nat) [i; j] [a; b; c].
  - intros (F0 & F1 & F2 & F3 & F4 & F5) Ha Pa Hb Pb HW C1 C2 C3. assert (HW' := HW). destruct HW' as ((_ & A1) & (_ & A2) & (_ & A3) & (_ & A4)).
    destruct Ha as [|i0 [|i1 [|i2 [|? ?]]]]; destruct Hb as [|j0 [|j1 [|? ?]]]; cbn [length] in C1, C2, C3; try (exfalso; lia);
      destruct Pa as [|a0 [|a1 [|? ?]]]; cbn [length] in C1; try (exfalso; lia); destruct Pb as [|b0 [|b1 [|b2 [|? ?]]]]; cbn [length] in C2; try (exfalso; lia); cbn [In] in *;
      lazymatch goal with
      | |- context [lst _ [?i] (@nil nat) (@nil nat) [?a]] => ups (F0 a i ltac:(apply A4; tauto) ltac:(apply A1; tauto))
      | |- context [lst _ [?i; ?j] [?a] (@nil nat) [?b]] => ups (F1 a b i j ltac:(apply A2; tauto) ltac:(apply A4; tauto) ltac:(apply A1; tauto) ltac:(apply A1; tauto))
      | |- context [lst _ [?j] (@nil nat) [?i] [?a; ?b]] => ups (F2 a b i j ltac:(apply A4; tauto) ltac:(apply A4; tauto) ltac:(apply A3; tauto) ltac:(apply A1; tauto))
      | |- context [lst _ [?i; ?j; ?k] [?a; ?b] (@nil nat) [?c]] => ups (F3 a b c i j k ltac:(apply A2; tauto) ltac:(apply A2; tauto) ltac:(apply A4; tauto) ltac:(apply A1; tauto) ltac:(apply A1; tauto) ltac:(apply A1; tauto))
      | |- context [lst _ [?i; ?k] [?a] [?j] [?b; ?c]] => ups (F4 a b c i j k ltac:(apply A2; tauto) ltac:(apply A4; tauto) ltac:(apply A4; tauto) ltac:(apply A1; tauto) ltac:(apply A3; tauto) ltac:(apply A1; tauto))
      | |- context [lst _ [?k] (@nil nat) [?i; ?j] [?a; ?b; ?c]] => ups (F5 a b c i j k ltac:(apply A4; tauto) ltac:(apply A4; tauto) ltac:(apply A4; tauto) ltac:(apply A3; tauto) ltac:(apply A3; tauto) ltac:(apply A1; tauto))
      end.
Qed.
End F.
