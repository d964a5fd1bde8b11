(** Specification vocabulary for C22-C24, C55, C56; independent of SolverModel; the DIIS object and its
    extrapolation are those characterised in C25. *)
From Coq Require Import Reals ZArith Arith Bool.
From Verif Require Import RSum DiisModel.
Open Scope R_scope.

(** A run of n amplitude updates: [before k] enters the k-th update, [after k] leaves it; [resid (S k)] and [world (S k)]
    are the residual and intermediates it leaves behind. *)
Definition run {W : Type} (upd : (nat -> R) -> (nat -> R) -> W -> (nat -> R) * (nat -> R) * W)
  (T0 dT0 : nat -> R) (w0 : W) (n : nat) (before after resid : nat -> nat -> R) (world : nat -> W) : Prop :=
  before 0%nat = T0 /\ resid 0%nat = dT0 /\ world 0%nat = w0 /\
  forall k, (k < n)%nat -> upd (before k) (resid k) (world k) = (after k, resid (S k), world (S k)).

(** Euclidean length. *)
Definition length2 (n : nat) (v : nat -> R) : R := sqrt (sumn n (fun p => v p * v p)).

(** Update number k meets both tolerances; [e] is the energy after each update, [e_start] that of the initial guess. *)
Definition meets (ndim : nat) (amp_tol en_tol : R) (resid : nat -> nat -> R) (e : nat -> R) (e_start : R) (k : nat) : Prop :=
  length2 ndim (resid (S k)) < amp_tol /\
  Rabs (e k - match k with O => e_start | S j => e j end) < en_tol.

(** The d slots of a store hold exactly the last d pairs (after t, resid (S t)), t in (k-d, k]: the map t -> slot is a
    bijection between these t and the slots. *)
Definition holds_last_pairs (d k : nat) (after resid slotT slotR : nat -> nat -> R) : Prop :=
  exists slot : nat -> nat,
    (forall t, (t <= k < t + d)%nat -> (slot t < d)%nat /\ slotT (slot t) = after t /\ slotR (slot t) = resid (S t)) /\
    (forall t t', (t <= k < t + d)%nat -> (t' <= k < t' + d)%nat -> slot t = slot t' -> t = t') /\
    (forall s, (s < d)%nat -> exists t, (t <= k < t + d)%nat /\ slot t = s).

(** What follows update k: its own result while DIIS is off (size -1) or fewer than d+1 updates were made; otherwise the
    extrapolation of a store of size d holding exactly the last d pairs. *)
Definition continues (dsize : Z) (ndim k : nat) (after resid : nat -> nat -> R) (next : nat -> R) : Prop :=
  ((dsize = -1 \/ Z.of_nat k < dsize)%Z /\ next = after k) \/
  (dsize <> -1 /\ dsize <= Z.of_nat k)%Z /\
  exists s : diis, d_size s = Z.to_nat dsize /\ d_ndim s = ndim /\
    holds_last_pairs (Z.to_nat dsize) k after resid (d_T s) (d_R s) /\ next = extrapolate s.
