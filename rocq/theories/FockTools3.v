(** Shared steps of the sector proofs with three-body operators (proof support). *)
From Coq Require Import Reals Arith NArith List Bool Lia Lra QArith Qreals ZArith.
From Verif Require Import RSum IntegralsModel TensorObjs TensorAlg FockSpec FockCar FockWick FockArrays FockExp FockTerms FockCheck FockState FockSector FockSectorTools.
Import ListNotations.
Local Open Scope R_scope.
Lemma fourth : Q2R (1 # 4) = / 4. Proof. unfold Q2R. cbn [Qnum Qden]. lra. Qed.
Lemma twelfth : Q2R (1 # 12) = / 12. Proof. unfold Q2R. cbn [Qnum Qden]. lra. Qed.
Ltac okswap6 H := split; [intros ix Hx; cbn [length] in Hx; destruct ix as [|? [|? [|? [|? [|? [|? [|? ix]]]]]]]; try discriminate; cbn -[Rmult IZR]; rewrite H; cbn [sgn]; ring
  |cbn [In length]; intros; lia].
Ltac extv := let k := fresh in let u := fresh in let G := fresh in intros k u G; cbn [In] in G; repeat (destruct G as [G|G]; [injection G as <- <-; assumption|]); destruct G.
Ltac opok rts op := apply ext_state; intros D; unfold psem, rts, op; cbn [lsum]; unfold tsem; cbn [t_c t_l t_f t_o]; rewrite ?Q1, ?half, ?fourth, ?twelfth, ?Rmult_1_l, Rplus_0_r, ?Rplus_assoc;
  repeat match goal with |- _ + _ = _ + _ => apply f_equal2 | |- / _ * _ = / _ * _ => apply f_equal end; cbn [ssum]; repeat (apply sumn_ext; intros ? _); cbn [prodf]; rewrite Rmult_1_r; reflexivity.
