(** Directional derivatives of tensor contractions: a syntactic product rule on [ex] and its soundness with respect to [derivable_pt_lim].
    Proof tool, models no code. *)
From Coq Require Import Reals Arith List Lra ZArith.
From Verif Require Import RSum TensorAlg.
Import ListNotations.
Open Scope R_scope.

(** [dm k = Some k']: array k moves in the direction of array k'; [None]: it is constant.  The result [None] stands for zero. *)
Fixpoint dex (dm : nat -> option nat) (e : ex) : option ex :=
  match e with
  | EC _ _ => None
  | ET k ix => match dm k with Some k' => Some (ET k' ix) | None => None end
  | EAdd a b => match dex dm a, dex dm b with
                | Some x, Some y => Some (EAdd x y) | Some x, None => Some x | None, Some y => Some y | None, None => None end
  | ESub a b => match dex dm a, dex dm b with
                | Some x, Some y => Some (ESub x y) | Some x, None => Some x | None, Some y => Some (EOpp y) | None, None => None end
  | EOpp a => match dex dm a with Some x => Some (EOpp x) | None => None end
  | EMul a b => match dex dm a, dex dm b with
                | Some x, Some y => Some (EAdd (EMul x b) (EMul a y)) | Some x, None => Some (EMul x b) | None, Some y => Some (EMul a y)
                | None, None => None end
  | EScale n d a => match dex dm a with Some x => Some (EScale n d x) | None => None end
  | ESum x d a => match dex dm a with Some y => Some (ESum x d y) | None => None end
  end.
Definition oex (e : option ex) : ex := match e with Some x => x | None => EC 0 1 end.

Lemma derivable_sumn n (f : nat -> R -> R) (l : nat -> R) x :
  (forall i, derivable_pt_lim (f i) x (l i)) -> derivable_pt_lim (fun t => sumn n (fun i => f i t)) x (sumn n l).
Proof.
  intros H. induction n as [|n IH]; [apply derivable_pt_lim_const|].
  change (derivable_pt_lim (plus_fct (fun t => sumn n (fun i => f i t)) (f n)) x (sumn n l + l n)).
  now apply derivable_pt_lim_plus.
Qed.
Lemma dlim_eq f x l l' : derivable_pt_lim f x l -> l = l' -> derivable_pt_lim f x l'.
Proof. now intros H <-. Qed.
Lemma den_zero dim ten v : den dim ten (EC 0 1) v = 0.
Proof. simpl. field. Qed.
Lemma den_agree dim ten ten' e : (forall k l, ten k l = ten' k l) -> forall v, den dim ten e v = den dim ten' e v.
Proof.
  intros E. induction e as [n p|k ix|a IHa b IHb|a IHa b IHb|a IHa|a IHa b IHb|n p a IHa|y c a IHa]; intros v; simpl;
    rewrite ?E, ?IHa, ?IHb; try reflexivity. apply sumn_ext. intros i _. apply IHa.
Qed.

Section Deriv.
Variables (dim : nat -> nat) (dm : nat -> option nat) (ten : R -> nat -> list nat -> R) (ten0 : nat -> list nat -> R).
Hypothesis line : forall t k l, ten t k l = ten0 k l + t * match dm k with Some k' => ten0 k' l | None => 0 end.
Lemma line0 k l : ten 0 k l = ten0 k l.
Proof. rewrite line. ring. Qed.
Lemma den0 e v : den dim (ten 0) e v = den dim ten0 e v.
Proof. apply den_agree. intros. apply line0. Qed.

Theorem dex_ok e : forall v, derivable_pt_lim (fun t => den dim (ten t) e v) 0 (den dim ten0 (oex (dex dm e)) v).
Proof.
  induction e as [n p|k ix|a IHa b IHb|a IHa b IHb|a IHa|a IHa b IHb|n p a IHa|y c a IHa]; intros v; cbn [dex den].
  - eapply dlim_eq; [apply derivable_pt_lim_const|symmetry; apply den_zero].
  - eapply dlim_eq with (l := match dm k with Some k' => ten0 k' (map v ix) | None => 0 end).
    + intros eps He. exists (mkposreal 1 Rlt_0_1). intros h Hh _. rewrite !line.
      set (D := match dm k with Some _ => _ | None => _ end).
      replace ((ten0 k (map v ix) + (0 + h) * D - (ten0 k (map v ix) + 0 * D)) / h - D) with 0 by (field; exact Hh).
      now rewrite Rabs_R0.
    + destruct (dm k); [reflexivity|symmetry; apply den_zero].
  - eapply dlim_eq; [apply (derivable_pt_lim_plus (fun t => den dim (ten t) a v) (fun t => den dim (ten t) b v)); [apply IHa|apply IHb]|].
    destruct (dex dm a), (dex dm b); cbn [oex]; rewrite ?den_zero; try reflexivity; ring.
  - eapply dlim_eq; [apply (derivable_pt_lim_minus (fun t => den dim (ten t) a v) (fun t => den dim (ten t) b v)); [apply IHa|apply IHb]|].
    destruct (dex dm a), (dex dm b); cbn [oex]; rewrite ?den_zero; try reflexivity; cbn [den]; ring.
  - eapply dlim_eq; [apply (derivable_pt_lim_opp (fun t => den dim (ten t) a v)); apply IHa|].
    destruct (dex dm a); cbn [oex]; rewrite ?den_zero; try reflexivity; ring.
  - eapply dlim_eq; [apply (derivable_pt_lim_mult (fun t => den dim (ten t) a v) (fun t => den dim (ten t) b v)); [apply IHa|apply IHb]|].
    cbv beta. rewrite !den0. destruct (dex dm a), (dex dm b); cbn [oex]; rewrite ?den_zero; cbn [den]; ring.
  - eapply dlim_eq; [apply (derivable_pt_lim_scal (fun t => den dim (ten t) a v)); apply IHa|].
    destruct (dex dm a); cbn [oex]; rewrite ?den_zero; [reflexivity|ring].
  - eapply dlim_eq; [apply (derivable_sumn (dim c) (fun i t => den dim (ten t) a (upd v y i))); intros i; apply IHa|].
    destruct (dex dm a); cbn [oex]; rewrite ?den_zero; [reflexivity|]. rewrite (sumn_ext _ _ (fun _ => 0)); [apply sumn_const0|intros; apply den_zero].
Qed.
End Deriv.
