(** Model of the Jacobi/DIIS drivers of ccpy/drivers/solvers.py:
    cc_jacobi (550-638), eccc_jacobi (473-548), lrcc_jacobi (749-831), left_cc_jacobi (641-747) and
    eomcc_nonlinear_diis (30-90).
    The amplitude update, the energy functional and the overlap function are parameters: arbitrary functions.  The
    update also receives and returns a world [W] (the intermediates X, which the update methods overwrite).
    Amplitude containers are identified with their flattened vectors (C06).  Simplified: exact real arithmetic,
    printing and timing dropped.  [None] is a Python exception, or a division by a
    vanishing overlap or norm (numpy continues with inf/nan there). *)
From Coq Require Import Reals ZArith Arith Bool List.
From Verif Require Import RSum DiisModel.
Open Scope R_scope.

(** np.linalg.norm *)
Definition norm (n : nat) (v : vec) : R := sqrt (sumn n (fun p => v p * v p)).

(** The entries of the options dictionary used by the loops. *)
Record options := mkOptions { amp_convergence : R; energy_convergence : R; maximum_iterations : nat; diis_size : Z }.

(** Loop state.  [j_lr] is the LR variable of left_cc_jacobi (line 656). *)
Record jstate (W : Type) := mkJ {
  j_T : vec; j_dT : vec; j_W : W; j_energy : R; j_energy_old : R; j_diis : diis; j_lr : R }.
Arguments mkJ {W}. Arguments j_T {W}. Arguments j_dT {W}. Arguments j_W {W}. Arguments j_energy {W}.
Arguments j_energy_old {W}. Arguments j_diis {W}. Arguments j_lr {W}.

(** Returned values (T, energy, LR, is_converged) and the final residual container and world. *)
Record jresult (W : Type) := mkJR {
  r_T : vec; r_dT : vec; r_W : W; r_energy : R; r_lr : R; r_converged : bool }.
Arguments mkJR {W}. Arguments r_T {W}. Arguments r_dT {W}. Arguments r_W {W}. Arguments r_energy {W}.
Arguments r_lr {W}. Arguments r_converged {W}.

Section Jacobi.
Variable W : Type.
Variable ndim : nat.
Variable upd : vec -> vec -> W -> vec * vec * W.  (* update_t(T, dT, ..., X, ...) *)
Variable energy_of : vec -> vec -> R.              (* get_cc_energy(T, H); get_lcc_energy(L, LH) + omega *)
Variable overlap : option (vec -> R).              (* LR_function of left_cc_jacobi when not ground_state *)
Variable opt : options.

(** Lines 553-556 / 644-646. *)
Definition do_diis : bool := negb (Z.eqb (diis_size opt) (-1)).

(** Exit test, lines 597-602 / 692-697. *)
Definition exit_test (dT : vec) (energy energy_old : R) : bool :=
  (if Rlt_dec (norm ndim dT) (amp_convergence opt) then true else false) &&
  (if Rlt_dec (Rabs (energy - energy_old)) (energy_convergence opt) then true else false).

(** Body of one iteration after a failed exit test: push (619-620), extrapolation (623-625), energy_old (628) and, for
    left excited states, biorthonormalisation (735-737).  [niter % diis_size] with diis_size = 0 raises. *)
Definition advance (niter : nat) (T dT : vec) (w : W) (energy : R) (st : jstate W) : option (jstate W) :=
  if do_diis && (diis_size opt =? 0)%Z then None else
  let d := if do_diis then push (j_diis st) T dT niter else j_diis st in
  let T1 := if do_diis && (diis_size opt <=? Z.of_nat niter)%Z then extrapolate d else T in
  match overlap with
  | None => Some (mkJ T1 dT w energy energy d (j_lr st))
  | Some f => if Req_EM_T (f T1) 0 then None
              else Some (mkJ (fun p => 1 / f T1 * T1 p) dT w energy energy d (f T1))
  end.

(** The for loop: [fuel] iterations are left, niter is the loop variable. *)
Fixpoint iterate (fuel niter : nat) (st : jstate W) : option (jresult W) :=
  match fuel with
  | O => Some (mkJR (j_T st) (j_dT st) (j_W st) (j_energy st) (j_lr st) false)
  | S fuel' =>
      let '(T, dT, w) := upd (j_T st) (j_dT st) (j_W st) in
      let energy := energy_of T dT in
      if exit_test dT energy (j_energy_old st)
      then Some (mkJR T dT w energy (j_lr st) true)
      else match advance niter T dT w energy st with
           | None => None
           | Some st' => iterate fuel' (S niter) st'
           end
  end.

(** The drivers.  Negative diis_size other than -1: np.zeros raises (line 560, diis.py 22). *)
Definition jacobi (T0 dT0 : vec) (w0 : W) : option (jresult W) :=
  if do_diis && (diis_size opt <? 0)%Z then None else
  iterate (maximum_iterations opt) 0
    (mkJ T0 dT0 w0 0 (energy_of T0 dT0) (diis_init (Z.to_nat (diis_size opt)) ndim) 0).
End Jacobi.

(** cc_jacobi, eccc_jacobi, lrcc_jacobi: energy depends on T only, no overlap. *)
Definition cc_jacobi (W : Type) (ndim : nat) (upd : vec -> vec -> W -> vec * vec * W) (e : vec -> R) (opt : options)
  (T0 dT0 : vec) (w0 : W) : option (jresult W) :=
  jacobi W ndim upd (fun T _ => e T) None opt T0 dT0 w0.

(** get_lcc_energy, ccpy/energy/cc_energy.py 58-59. *)
Definition get_lcc_energy (ndim : nat) (L LH : vec) : R :=
  sqrt (sumn ndim (fun p => LH p * LH p)) / sqrt (sumn ndim (fun p => L p * L p)).
Definition left_cc_jacobi (W : Type) (ndim : nat) (upd : vec -> vec -> W -> vec * vec * W) (omega : R)
  (ground_state : bool) (LR : vec -> R) (opt : options) (L0 LH0 : vec) (w0 : W) : option (jresult W) :=
  jacobi W ndim upd (fun L LH => get_lcc_energy ndim L LH + omega) (if ground_state then None else Some LR)
    opt L0 LH0 w0.

(** Driver.run_leftcc, ccpy/drivers/driver.py 1521-1528: the stored left vector, and the LR printed in the summary. *)
Definition run_left (W : Type) (ndim : nat) (upd : vec -> vec -> W -> vec * vec * W) (omega : R)
  (ground_state : bool) (LR : vec -> R) (opt : options) (L0 LH0 : vec) (w0 : W) : option (vec * R * bool) :=
  match left_cc_jacobi W ndim upd omega ground_state LR opt L0 LH0 w0 with
  | None => None
  | Some r => if ground_state then Some (r_T r, r_lr r, r_converged r)
              else if Req_EM_T (LR (r_T r)) 0 then None
              else Some (fun p => 1 / LR (r_T r) * r_T r p, r_lr r, r_converged r)
  end.

(** eomcc_nonlinear_diis, lines 30-90: [sigma] = HR(R, omega) as a vector, [upd] = update_r(dR, omega). *)
Record nstate := mkN { n_R : vec; n_omega : R; n_diis : diis }.
Section Nonlinear.
Variable ndim : nat.
Variable sigma : vec -> R -> vec.
Variable upd : vec -> R -> vec.
Variable opt : options.

Definition normalised (R0 : vec) : vec := fun p => R0 p / norm ndim R0.

Fixpoint nonlinear_loop (fuel niter : nat) (st : nstate) : option (vec * R * bool) :=
  match fuel with
  | O => Some (n_R st, n_omega st, false)
  | S fuel' =>
      if Req_EM_T (norm ndim (n_R st)) 0 then None else
      let Rn := normalised (n_R st) in                                      (* line 54 *)
      let s := sigma Rn (n_omega st) in                                     (* line 56 *)
      let omega := dot ndim s Rn in                                         (* line 58 *)
      let dR : vec := fun p => s p - omega * Rn p in                        (* line 60 *)
      if (if Rlt_dec (norm ndim dR) (amp_convergence opt) then true else false) &&
         (if Rlt_dec (Rabs (omega - n_omega st)) (energy_convergence opt) then true else false)
      then Some (Rn, omega, true)                                           (* lines 64-69 *)
      else if (diis_size opt =? 0)%Z then None
      else let du := upd dR omega in                                        (* line 71 *)
           let R1 : vec := fun p => Rn p + du p in                          (* line 73 *)
           let d := push (n_diis st) R1 du niter in                         (* line 75 *)
           let R2 := if (diis_size opt <=? Z.of_nat niter)%Z then extrapolate d else R1 in   (* lines 77-78 *)
           nonlinear_loop fuel' (S niter) (mkN R2 omega d)
  end.
Definition nonlinear_diis (B0 : vec) (omega0 : R) : option (vec * R * bool) :=
  if (diis_size opt <? 0)%Z then None else
  nonlinear_loop (maximum_iterations opt) 0 (mkN B0 omega0 (diis_init (Z.to_nat (diis_size opt)) ndim)).
End Nonlinear.
