(** Model of eomcc_davidson and eomcc_block_davidson (ccpy/drivers/solvers.py 92-230, 360-471) and of gramschmidt
    (ccpy/utilities/utilities.py 242-253).  Vectors are functions read on indices < n; exact real arithmetic.
    Abstract: the sigma-vector routine HR (a function of the trial vector), the preconditioner update_r, the eigensolver together with the
    selection of a root, and the QR factorisation of the single restart column.  Left out: HDF5 storage, printing, timings.
    A division by a zero norm, which numpy turns into NaN, ends the model with its own outcome. *)
From Coq Require Import Reals Arith Bool List.
From Verif Require Import RSum DiisModel.
Import ListNotations.
Open Scope R_scope.

(** np.linalg.norm *)
Definition norm (n : nat) (v : vec) : R := sqrt (dot n v v).
(** v / np.linalg.norm(v); None for 0/0 *)
Definition normalise (n : nat) (v : vec) : option vec :=
  if Req_EM_T (norm n v) 0 then None else Some (fun k => v k / norm n v).
Definition bind {A B} (x : option A) (f : A -> option B) : option B := match x with Some a => f a | None => None end.
(** q -= np.dot(b, q) * b *)
Definition project_out (n : nat) (b q : vec) : vec := fun k => q k - dot n b q * b k.
(** solvers.py 184-186 and 440-442: for p in range(size): b = B[p]/norm(B[p]); q -= np.dot(b, q)*b *)
Definition orthogonalise (n : nat) (B : nat -> vec) (size : nat) (q : vec) : option vec :=
  fold_left (fun acc p => bind acc (fun q => bind (normalise n (B p)) (fun b => Some (project_out n b q)))) (seq 0 size) (Some q).
(** np.dot(B[:size].T, alpha) *)
Definition lincomb (size : nat) (B : nat -> vec) (alpha : vec) : vec := fun k => sumn size (fun p => B p k * alpha p).
Definition below (x tol : R) : bool := if Rlt_dec x tol then true else false.

Section Davidson.
Variables (n : nat) (HR : vec -> vec) (update_r : vec -> R -> vec) (eig : R -> nat -> mat -> R * vec) (qr : vec -> vec).
Variables (max_size : nat) (amp econv : R).

Record dav := mkDav { d_B : nat -> vec; d_S : nat -> vec; d_G : mat; d_sz : nat; d_omega : R }.
(** lines 128-137, 143 *)
Definition dav_init (b0 : vec) (omega : R) : dav :=
  {| d_B := set_row (fun _ _ => 0) 0 b0; d_S := set_row (fun _ _ => 0) 0 (HR b0); d_G := fun _ _ => 0; d_sz := 1; d_omega := omega |}.
(** lines 150-151: the new row, then the new column of G. *)
Definition dav_G (st : dav) : mat :=
  let c := (d_sz st - 1)%nat in
  let G1 : mat := fun i j => if (i =? c) && (j <? d_sz st) then dot n (d_B st c) (d_S st j) else d_G st i j in
  fun i j => if (j =? c) && (i <? d_sz st) then dot n (d_S st c) (d_B st i) else G1 i j.
(** lines 152-172: eigenpair, approximate eigenvector r, residual. *)
Definition dav_pair (st : dav) : R * vec := eig (d_omega st) (d_sz st) (dav_G st).
Definition dav_r (st : dav) : vec := lincomb (d_sz st) (d_B st) (snd (dav_pair st)).
Definition dav_residual (st : dav) : vec := fun k => lincomb (d_sz st) (d_S st) (snd (dav_pair st)) k - fst (dav_pair st) * dav_r st k.
(** line 175 *)
Definition dav_converged (st : dav) : bool :=
  below (norm n (dav_residual st)) amp && below (Rabs (fst (dav_pair st) - d_omega st)) econv.
(** lines 181-189 *)
Definition dav_new (st : dav) : option vec :=
  bind (normalise n (update_r (dav_residual st) (fst (dav_pair st)))) (fun q =>
  bind (orthogonalise n (d_B st) (d_sz st) q) (normalise n)).
(** lines 191-214: expand, or restart from the last approximation (nrest = 1, noffset = 0). *)
Definition dav_next (st : dav) : option dav :=
  if (d_sz st <? max_size)%nat then
    bind (dav_new st) (fun q =>
      Some {| d_B := set_row (d_B st) (d_sz st) q; d_S := set_row (d_S st) (d_sz st) (HR q); d_G := dav_G st; d_sz := d_sz st + 1; d_omega := fst (dav_pair st) |})
  else
    let q := qr (dav_r st) in
    Some {| d_B := set_row (d_B st) 0 q; d_S := set_row (d_S st) 0 (HR q); d_G := dav_G st; d_sz := 1 - 1 + 1; d_omega := fst (dav_pair st) |}.
(** What the routine returns: R (last r), omega, is_converged; with maximum_iterations = 0 the name r is unbound. *)
Inductive dav_outcome := DavReturn (r : vec) (omega : R) (conv : bool) | DavNaN | DavUnbound.
Fixpoint dav_loop (iters : nat) (st : dav) : dav_outcome :=
  match iters with
  | 0 => DavUnbound
  | S k =>
      if dav_converged st then DavReturn (dav_r st) (fst (dav_pair st)) true
      else match dav_next st with
           | None => DavNaN
           | Some st' => match k with 0 => DavReturn (dav_r st) (fst (dav_pair st)) false | _ => dav_loop k st' end
           end
  end.
Definition davidson (iters : nat) (b0 : vec) (omega : R) : dav_outcome := dav_loop iters (dav_init b0 omega).
End Davidson.

Section Block.
Variables (n : nat) (HR : vec -> vec) (update_r : vec -> R -> vec).
(** eigensolver and selection for root j *)
Variable eig : nat -> mat -> nat -> R * vec.
Variables (nroot maxit : nat) (amp econv : R).
Definition max_cols : nat := (nroot * maxit)%nat.                                    (* line 373 *)
Record blk := mkBlk { b_B : nat -> vec; b_S : nat -> vec; b_G : mat; b_sz : nat; b_add : nat;
                      b_omega : nat -> R; b_conv : nat -> bool; b_R : nat -> vec }.
Inductive result (A : Type) := Ok (a : A) | IndexError | NaN.
Arguments Ok {A}. Arguments IndexError {A}. Arguments NaN {A}.
Definition rbind {A B} (x : result A) (f : A -> result B) : result B :=
  match x with Ok a => f a | IndexError => IndexError | NaN => NaN end.
Definition of_opt {A} (x : option A) : result A := match x with Some a => Ok a | None => NaN end.
(** Assignment to column c, which must exist. *)
Definition put_col (c : nat) (st : blk) (q : vec) : result blk :=
  if (c <? max_cols)%nat then
    Ok {| b_B := set_row (b_B st) c q; b_S := set_row (b_S st) c (HR q); b_G := b_G st; b_sz := b_sz st; b_add := b_add st + 1;
          b_omega := b_omega st; b_conv := b_conv st; b_R := b_R st |}
  else IndexError.
(** lines 382-393: columns j < nroot *)
Definition blk_empty (omega : nat -> R) (R0 : nat -> vec) : blk :=
  {| b_B := fun _ _ => 0; b_S := fun _ _ => 0; b_G := fun _ _ => 0; b_sz := 0; b_add := 0; b_omega := omega; b_conv := fun _ => false; b_R := R0 |}.
Definition with_size (st : blk) (s : nat) : blk :=
  {| b_B := b_B st; b_S := b_S st; b_G := b_G st; b_sz := s; b_add := b_add st; b_omega := b_omega st; b_conv := b_conv st; b_R := b_R st |}.
Definition blk_init (B0 : nat -> vec) (omega : nat -> R) : result blk :=
  rbind (fold_left (fun acc j => rbind acc (fun st => put_col j st (B0 j))) (seq 0 nroot) (Ok (blk_empty omega B0)))
        (fun st => Ok (with_size st nroot)).
(** lines 404-407 *)
Definition blk_G (st : blk) : mat :=
  fold_left (fun G p => fold_left (fun G j =>
      let c := (b_sz st - j)%nat in
      set_entry (set_entry G c p (dot n (b_B st c) (b_S st p))) p c (dot n (b_S st c) (b_B st p))) (seq 1 (b_add st)) G)
    (seq 0 (b_sz st)) (b_G st).
Definition set_at {A} (f : nat -> A) (j : nat) (x : A) : nat -> A := fun i => if i =? j then x else f i.
(** lines 416-461: body of the loop over roots.  [old] holds the energies of the previous iteration, [G] the interaction matrix. *)
Definition blk_root (old : nat -> R) (G : mat) (st : blk) (j : nat) : result blk :=
  if b_conv st j then Ok st
  else
    let (om, alpha) := eig (b_sz st) G j in
    let r := lincomb (b_sz st) (b_B st) alpha in
    let res : vec := fun k => lincomb (b_sz st) (b_S st) alpha k - om * r k in
    let st1 := {| b_B := b_B st; b_S := b_S st; b_G := b_G st; b_sz := b_sz st; b_add := b_add st;
                  b_omega := set_at (b_omega st) j om; b_conv := b_conv st; b_R := set_at (b_R st) j r |} in
    if below (norm n res) amp && below (Rabs (om - old j)) econv then
      Ok {| b_B := b_B st1; b_S := b_S st1; b_G := b_G st1; b_sz := b_sz st1; b_add := b_add st1;
            b_omega := b_omega st1; b_conv := set_at (b_conv st1) j true; b_R := b_R st1 |}
    else
      rbind (of_opt (bind (orthogonalise n (b_B st) (b_sz st + b_add st) (update_r res om)) (normalise n)))
            (fun q => put_col (b_sz st + b_add st) st1 q).
(** lines 399-470: one iteration up to the test for convergence of all roots *)
Definition blk_iter (st : blk) : result blk :=
  let G := blk_G st in
  fold_left (fun acc j => rbind acc (fun s => blk_root (b_omega st) G s j)) (seq 0 nroot)
    (Ok {| b_B := b_B st; b_S := b_S st; b_G := G; b_sz := b_sz st; b_add := 0; b_omega := b_omega st; b_conv := b_conv st; b_R := b_R st |}).
Definition all_conv (st : blk) : bool := forallb (b_conv st) (seq 0 nroot).
Fixpoint blk_loop (iters : nat) (st : blk) : result blk :=
  match iters with
  | 0 => Ok st
  | S k => rbind (blk_iter st) (fun st' => if all_conv st' then Ok st' else blk_loop k (with_size st' (b_sz st' + b_add st')))
  end.
Definition block_davidson (B0 : nat -> vec) (omega : nat -> R) : result blk :=
  rbind (blk_init B0 omega) (fun st => blk_loop maxit st).
End Block.
Arguments Ok {A}. Arguments IndexError {A}. Arguments NaN {A}.

(** gramschmidt, utilities.py 242-253, on m columns: A[:, j] is replaced in place. *)
Definition gs_column (n : nat) (A : nat -> vec) (j : nat) : option vec :=
  normalise n (fold_left (fun q k => project_out n (A k) q) (seq 0 j) (A j)).
Definition gramschmidt (n m : nat) (A : nat -> vec) : option (nat -> vec) :=
  fold_left (fun acc j => bind acc (fun A => bind (gs_column n A j) (fun v => Some (set_row A j v)))) (seq 0 m) (Some A).
