(** Cases for the theorems of SectorProps.v with three orbitals: spin flip, two and three electrons attached. *)
From Coq Require Import Reals Arith List Bool Lia Lra.
From Verif Require Import RSum IntegralsModel TensorObjs TensorAlg TensorSpec CcsdModel CcsdUpdate LeftModel CcsdProps FockSpec FockCcSpec FockProps SectorModel FockSectorSpec SectorProps.
Import ListNotations.
Local Open Scope R_scope.

(** The same molecule with a third orbital at energy 1 *)
Definition ex3_ints : integrals :=
  let h p q := if ((p =? 1) && (q =? 1))%nat then 3 / 2 else if ((p =? 2) && (q =? 2))%nat then 1 else 0 in
  let w p q r s := if ((p =? q) && (r =? s) && negb (p =? r) && (p <? 2) && (r <? 2))%nat then 2 else 0 in
  mkIntegrals h h (fun _ _ _ _ => 0) w (fun _ _ _ _ => 0).
Definition ex3_amps : amps := mkAmps (fun _ _ => 0) (fun _ _ => 0) (fun _ _ _ _ => 0) (fun a b _ _ => if ((a =? 0) && (b =? 0))%nat then - / 2 else 0) (fun _ _ _ _ => 0)
  (fun _ _ _ _ _ _ => 0) (fun _ _ _ _ _ _ => 0) (fun _ _ _ _ _ _ => 0) (fun _ _ _ _ _ _ => 0).
Definition ex3_dims : dims := mkDims 1 2 1 2.
Ltac two := repeat match goal with H : (?x < 2)%nat |- _ => destruct x as [|[|x]]; [clear H|clear H|exfalso; lia] end.
Definition ex3_ok : Prop := shape ex3_dims 3 /\ exchangeable ex3_ints /\ antisym_amps ex3_amps /\ same_amps ex3_dims (ccsd_resid ex3_dims (fock_ints 1 1 ex3_ints) ex3_amps) zero_amps.
Lemma ex3_okay : ex3_ok.
Proof.
  split; [split; reflexivity|]. split; [split; intros; cbn; ring|]. split; [constructor; intros; cbn; ring|].
  constructor; intros; cbn [ex3_dims noa nua nob nub] in *; one; two; cbn [ccsd_resid zero_amps x_a x_b x_aa x_ab x_bb]; unfold four_term; value.
Qed.
Notation ex3_bar := (hbar_ccsd ex3_dims (fock_ints 1 1 ex3_ints) ex3_amps).
Definition pair2 (a b : nat) : R := match a, b with O, S O => 1 | S O, O => - 1 | _, _ => 0 end.
(** flipping the spin: beta electrons in the orbitals 0 and 1 (3/2, w = 5/2), or 1 and 2 (5/2, w = 7/2) *)
Definition ex_sf : sfv := mkSf (fun a _ => if (a =? 0)%nat then 1 else 0) (fun _ _ _ _ => 0) (fun _ _ _ _ => 0).
Definition ex_sf2 : sfv := mkSf (fun _ _ => 0) (fun _ _ _ _ => 0) (fun a b _ _ => pair2 a b).
Lemma pair2_anti a b : pair2 a b = - pair2 b a. Proof. destruct a as [|[|a]], b as [|[|b]]; cbn; ring. Qed.
Example C68_instance : ex3_ok /\ sf_anti ex_sf /\ sf_anti ex_sf2 /\
  sf_root ex3_dims (sf_HR ex3_dims ex3_bar ex3_amps ex_sf) ex_sf (5 / 2) /\ sf_root ex3_dims (sf_HR ex3_dims ex3_bar ex3_amps ex_sf2) ex_sf2 (7 / 2).
Proof.
  split; [exact ex3_okay|]. split; [split; intros ? ? ? ?; cbn; ring|]. split; [split; intros; cbn; [ring|apply pair2_anti]|].
  split; (split; [|split]); intros; cbn [ex3_dims noa nua nob nub] in *; one; two; value.
Qed.
(** attaching two: both orbitals doubly occupied (3, w = 4), or alpha 1, 2 and beta 0, 1 (4, w = 5) *)
Definition ex_dea : deav := mkDea (fun a b => if ((a =? 0) && (b =? 0))%nat then 1 else 0) (fun _ _ _ _ => 0) (fun _ _ _ _ => 0).
Definition ex_dea2 : deav := mkDea (fun _ _ => 0) (fun a b c _ => if (b =? 0)%nat then pair2 a c else 0) (fun _ _ _ _ => 0).
Example C70_instance : ex3_ok /\ dea_anti ex_dea /\ dea_anti ex_dea2 /\
  dea_root ex3_dims (dea_HR ex3_dims ex3_bar ex3_amps ex_dea) ex_dea 4 /\ dea_root ex3_dims (dea_HR ex3_dims ex3_bar ex3_amps ex_dea2) ex_dea2 5.
Proof.
  split; [exact ex3_okay|]. split; [split; intros ? ? ? ?; cbn; ring|]. split; [split; intros a b c k; cbn; [destruct (b =? 0)%nat; [apply pair2_anti|ring]|ring]|].
  split; (split; [|split]); intros; cbn [ex3_dims noa nua nob nub] in *; one; two; value.
Qed.
(** attaching three: alpha 0, 1, 2 and beta 0, 1 (4, w = 5) *)
Definition ex_tea : teav := mkTea (fun a b c => if (c =? 0)%nat then pair2 a b else 0).
Example C71_instance : ex3_ok /\ tea_anti ex_tea /\ tea_root ex3_dims (tea_HR ex3_dims ex3_bar ex3_amps ex_tea) ex_tea 5.
Proof.
  split; [exact ex3_okay|]. split; [intros a b c; cbn; destruct (c =? 0)%nat; [apply pair2_anti|ring]|].
  intros a b c Ha Hb Hc; cbn [ex3_dims noa nua nob nub] in *; two; value.
Qed.
