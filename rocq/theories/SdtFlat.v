(** Generated by tools/gen_sdt.py: the determinants of CCSDT as strings on the reference (proof support). *)
From Coq Require Import Reals Arith NArith List Bool Lia.
From Verif Require Import RSum IntegralsModel TensorObjs FockSpec FockCar FockCcSpec FockSectorSpec RankSpec SdtSpec FockFlip FockCount.
Import ListNotations.
Local Open Scope nat_scope.
Section F.
Variables (d : dims) (n : nat) (W : state).
Hypothesis En : noa d + nua d = n.
Hypothesis En' : nob d + nub d = n.
Notation ref := (reference (noa d) (nob d)).
Lemma sdt_flat : (forall D, sdt_space d n D -> W D = 0%R) <-> (
  (str [] W ref = 0%R) /\
  (forall a i, (a < nua d) -> (i < noa d) -> str [(true, oa i); (false, va d a)] W ref = 0%R) /\
  (forall a i, (a < nub d) -> (i < nob d) -> str [(true, ob i); (false, vb d a)] W ref = 0%R) /\
  (forall a b i j, (a < nua d) -> (b < nua d) -> (i < noa d) -> (j < noa d) -> str [(true, oa i); (true, oa j); (false, va d b); (false, va d a)] W ref = 0%R) /\
  (forall a b i j, (a < nua d) -> (b < nub d) -> (i < noa d) -> (j < nob d) -> str [(true, oa i); (true, ob j); (false, vb d b); (false, va d a)] W ref = 0%R) /\
  (forall a b i j, (a < nub d) -> (b < nub d) -> (i < nob d) -> (j < nob d) -> str [(true, ob i); (true, ob j); (false, vb d b); (false, vb d a)] W ref = 0%R) /\
  (forall a b c i j k, (a < nua d) -> (b < nua d) -> (c < nua d) -> (i < noa d) -> (j < noa d) -> (k < noa d) -> str [(true, oa i); (true, oa j); (true, oa k); (false, va d c); (false, va d b); (false, va d a)] W ref = 0%R) /\
  (forall a b c i j k, (a < nua d) -> (b < nua d) -> (c < nub d) -> (i < noa d) -> (j < noa d) -> (k < nob d) -> str [(true, oa i); (true, oa j); (true, ob k); (false, vb d c); (false, va d b); (false, va d a)] W ref = 0%R) /\
  (forall a b c i j k, (a < nua d) -> (b < nub d) -> (c < nub d) -> (i < noa d) -> (j < nob d) -> (k < nob d) -> str [(true, oa i); (true, ob j); (true, ob k); (false, vb d c); (false, vb d b); (false, va d a)] W ref = 0%R) /\
  (forall a b c i j k, (a < nub d) -> (b < nub d) -> (c < nub d) -> (i < nob d) -> (j < nob d) -> (k < nob d) -> str [(true, ob i); (true, ob j); (true, ob k); (false, vb d c); (false, vb d b); (false, vb d a)] W ref = 0%R)).
Proof.
  unfold sdt_space. rewrite (sector_flat d n En En'). split.
  - intros H. split; [|split; [|split; [|split; [|split; [|split; [|split; [|split; [|split; [|]]]]]]]]]; intros.
    + down H (@nil nat) (@nil nat) (@nil nat) (@nil nat).
    + down H [i] [a] (@nil nat) (@nil nat).
    + down H (@nil nat) (@nil nat) [i] [a].
    + down H [i; j] [a; b] (@nil nat) (@nil nat).
    + down H [i] [a] [j] [b].
    + down H (@nil nat) (@nil nat) [i; j] [a; b].
    + down H [i; j; k] [a; b; c] (@nil nat) (@nil nat).
    + down H [i; j] [a; b] [k] [c].
    + down H [i] [a] [j; k] [b; c].
    + down H (@nil nat) (@nil nat) [i; j; k] [a; b; c].
  - intros (F0 & F1 & F2 & F3 & F4 & F5 & F6 & F7 & F8 & F9) Ha Pa Hb Pb HW C1 C2 C3. assert (HW' := HW). destruct HW' as ((_ & A1) & (_ & A2) & (_ & A3) & (_ & A4)).
    destruct Ha as [|i0 [|i1 [|i2 [|? ?]]]]; destruct Hb as [|j0 [|j1 [|j2 [|? ?]]]]; cbn [length] in C1, C2, C3; try (exfalso; lia);
      destruct Pa as [|a0 [|a1 [|a2 [|? ?]]]]; cbn [length] in C1; try (exfalso; lia); destruct Pb as [|b0 [|b1 [|b2 [|? ?]]]]; cbn [length] in C2; try (exfalso; lia); cbn [In] in *;
      lazymatch goal with
      | |- context [lst _ (@nil nat) (@nil nat) (@nil nat) (@nil nat)] => ups F0
      | |- context [lst _ [?i] [?a] (@nil nat) (@nil nat)] => ups (F1 a i ltac:(apply A2; tauto) ltac:(apply A1; tauto))
      | |- context [lst _ (@nil nat) (@nil nat) [?i] [?a]] => ups (F2 a i ltac:(apply A4; tauto) ltac:(apply A3; tauto))
      | |- context [lst _ [?i; ?j] [?a; ?b] (@nil nat) (@nil nat)] => ups (F3 a b i j ltac:(apply A2; tauto) ltac:(apply A2; tauto) ltac:(apply A1; tauto) ltac:(apply A1; tauto))
      | |- context [lst _ [?i] [?a] [?j] [?b]] => ups (F4 a b i j ltac:(apply A2; tauto) ltac:(apply A4; tauto) ltac:(apply A1; tauto) ltac:(apply A3; tauto))
      | |- context [lst _ (@nil nat) (@nil nat) [?i; ?j] [?a; ?b]] => ups (F5 a b i j ltac:(apply A4; tauto) ltac:(apply A4; tauto) ltac:(apply A3; tauto) ltac:(apply A3; tauto))
      | |- context [lst _ [?i; ?j; ?k] [?a; ?b; ?c] (@nil nat) (@nil nat)] => ups (F6 a b c i j k ltac:(apply A2; tauto) ltac:(apply A2; tauto) ltac:(apply A2; tauto) ltac:(apply A1; tauto) ltac:(apply A1; tauto) ltac:(apply A1; tauto))
      | |- context [lst _ [?i; ?j] [?a; ?b] [?k] [?c]] => ups (F7 a b c i j k ltac:(apply A2; tauto) ltac:(apply A2; tauto) ltac:(apply A4; tauto) ltac:(apply A1; tauto) ltac:(apply A1; tauto) ltac:(apply A3; tauto))
      | |- context [lst _ [?i] [?a] [?j; ?k] [?b; ?c]] => ups (F8 a b c i j k ltac:(apply A2; tauto) ltac:(apply A4; tauto) ltac:(apply A4; tauto) ltac:(apply A1; tauto) ltac:(apply A3; tauto) ltac:(apply A3; tauto))
      | |- context [lst _ (@nil nat) (@nil nat) [?i; ?j; ?k] [?a; ?b; ?c]] => ups (F9 a b c i j k ltac:(apply A4; tauto) ltac:(apply A4; tauto) ltac:(apply A4; tauto) ltac:(apply A3; tauto) ltac:(apply A3; tauto) ltac:(apply A3; tauto))
      end.
Qed.
End F.
