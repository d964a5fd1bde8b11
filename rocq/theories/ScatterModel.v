(** Model of the P-space-vector to dense-array conversions of ccpy/utilities/utilities.py (convert_t3_from_pspace 6-24,
    unravel_triples_amplitudes 26-137, unravel_3p2h_amplitudes 139-181, unravel_3h2p_amplitudes 183-225) and of the
    active-space zeroing of ccpy/utilities/active_space.py (zero_t3*_outside_active_space 132-305).
    A dense array is a function from index lists to reals; an index outside the shape is an IndexError (None).
    Simplified: labels are at least 1 (a label 0 would be Python index -1); rounding plays no role (copies and signs only). *)
From Coq Require Import List Arith Bool Reals.
From Verif Require Import PspaceModel.
Import ListNotations.

Definition tensor := list nat -> R.
Fixpoint in_bounds (shape idx : list nat) : bool :=
  match shape, idx with
  | [], [] => true
  | n :: sh, x :: r => (x <? n) && in_bounds sh r
  | _, _ => false
  end.
(** [T[idx] = v] *)
Definition write (shape : list nat) (T : option tensor) (idx : list nat) (v : R) : option tensor :=
  match T with
  | None => None
  | Some T => if in_bounds shape idx then Some (fun l => if list_eqb l idx then v else T l) else None
  end.
(** The assignments made for one row, in order: target index and whether the amplitude is negated. *)
Definition writes := list nat -> list (list nat * bool).
Definition scatter_row (shape : list nat) (W : writes) (T : option tensor) (row : list nat) (t : R) : option tensor :=
  fold_left (fun T (z : list nat * bool) => write shape T (fst z) (if snd z then Ropp t else t)) (W (map (fun x => x - 1) row)) T.
(** for idet in range(n): ... T.xxx[idet]  (fewer amplitudes than rows: IndexError). *)
Fixpoint scatter (shape : list nat) (W : writes) (rows : list (list nat)) (amps : list R) (T : option tensor) : option tensor :=
  match rows, amps with
  | [], _ => T
  | row :: rows, t :: amps => scatter shape W rows amps (scatter_row shape W T row t)
  | _ :: _, [] => None
  end.
Definition zero_tensor : tensor := fun _ => 0%R.
(** utilities.py 45-80 *)
Definition w_aaa : writes := fun row => match row with
  | [a; b; c; i; j; k] =>
    [([a; b; c; i; j; k], false); ([a; b; c; i; k; j], true); ([a; b; c; j; i; k], true); ([a; b; c; j; k; i], false);
     ([a; b; c; k; i; j], false); ([a; b; c; k; j; i], true); ([a; c; b; i; j; k], true); ([a; c; b; i; k; j], false);
     ([a; c; b; j; i; k], false); ([a; c; b; j; k; i], true); ([a; c; b; k; i; j], true); ([a; c; b; k; j; i], false);
     ([b; c; a; i; j; k], false); ([b; c; a; i; k; j], true); ([b; c; a; j; i; k], true); ([b; c; a; j; k; i], false);
     ([b; c; a; k; i; j], false); ([b; c; a; k; j; i], true); ([b; a; c; i; j; k], true); ([b; a; c; i; k; j], false);
     ([b; a; c; j; i; k], false); ([b; a; c; j; k; i], true); ([b; a; c; k; i; j], true); ([b; a; c; k; j; i], false);
     ([c; a; b; i; j; k], false); ([c; a; b; i; k; j], true); ([c; a; b; j; i; k], true); ([c; a; b; j; k; i], false);
     ([c; a; b; k; i; j], false); ([c; a; b; k; j; i], true); ([c; b; a; i; j; k], true); ([c; b; a; i; k; j], false);
     ([c; b; a; j; i; k], false); ([c; b; a; j; k; i], true); ([c; b; a; k; i; j], true); ([c; b; a; k; j; i], false)]
  | _ => [] end.
(** utilities.py 85-88 *)
Definition w_aab : writes := fun row => match row with
  | [a; b; c; i; j; k] =>
    [([a; b; c; i; j; k], false); ([b; a; c; i; j; k], true); ([a; b; c; j; i; k], true); ([b; a; c; j; i; k], false)]
  | _ => [] end.
(** utilities.py 93-96 *)
Definition w_abb : writes := fun row => match row with
  | [a; b; c; i; j; k] =>
    [([a; b; c; i; j; k], false); ([a; c; b; i; j; k], true); ([a; b; c; i; k; j], true); ([a; c; b; i; k; j], false)]
  | _ => [] end.
(** utilities.py 101-136 *)
Definition w_bbb : writes := fun row => match row with
  | [a; b; c; i; j; k] =>
    [([a; b; c; i; j; k], false); ([a; b; c; i; k; j], true); ([a; b; c; j; i; k], true); ([a; b; c; j; k; i], false);
     ([a; b; c; k; i; j], false); ([a; b; c; k; j; i], true); ([a; c; b; i; j; k], true); ([a; c; b; i; k; j], false);
     ([a; c; b; j; i; k], false); ([a; c; b; j; k; i], true); ([a; c; b; k; i; j], true); ([a; c; b; k; j; i], false);
     ([b; c; a; i; j; k], false); ([b; c; a; i; k; j], true); ([b; c; a; j; i; k], true); ([b; c; a; j; k; i], false);
     ([b; c; a; k; i; j], false); ([b; c; a; k; j; i], true); ([b; a; c; i; j; k], true); ([b; a; c; i; k; j], false);
     ([b; a; c; j; i; k], false); ([b; a; c; j; k; i], true); ([b; a; c; k; i; j], true); ([b; a; c; k; j; i], false);
     ([c; a; b; i; j; k], false); ([c; a; b; i; k; j], true); ([c; a; b; j; i; k], true); ([c; a; b; j; k; i], false);
     ([c; a; b; k; i; j], false); ([c; a; b; k; j; i], true); ([c; b; a; i; j; k], true); ([c; b; a; i; k; j], false);
     ([c; b; a; j; i; k], false); ([c; b; a; j; k; i], true); ([c; b; a; k; i; j], true); ([c; b; a; k; j; i], false)]
  | _ => [] end.

(** unravel_triples_amplitudes: ClusterOperator(system, order=3) starts from zeros; a spin case is skipped when do_t3 is
    False.  Returns the arrays aaa, aab, abb, bbb (singles and doubles are shared with T). *)
Definition shape_aaa (s : orbsys) := [nu_a s; nu_a s; nu_a s; no_a s; no_a s; no_a s].
Definition shape_aab (s : orbsys) := [nu_a s; nu_a s; nu_b s; no_a s; no_a s; no_b s].
Definition shape_abb (s : orbsys) := [nu_a s; nu_b s; nu_b s; no_a s; no_b s; no_b s].
Definition shape_bbb (s : orbsys) := [nu_b s; nu_b s; nu_b s; no_b s; no_b s; no_b s].
Definition unravel (shape : list nat) (W : writes) (do : bool) (rows : list (list nat)) (amps : list R) : option tensor :=
  if do then scatter shape W rows amps (Some zero_tensor) else Some zero_tensor.
(** convert_t3_from_pspace 10-20: [t3_excitations[..][0,:]] raises for an array without rows. *)
Definition first_is_placeholder (rows : list (list nat)) : option bool :=
  match rows with [] => None | r :: _ => Some (list_eqb r (repeat 1 6)) end.
Definition convert_case (shape : list nat) (W : writes) (rows : list (list nat)) (amps : list R) : option tensor :=
  match first_is_placeholder rows with None => None | Some e => unravel shape W (negb e) rows amps end.
Definition convert_t3_aaa (s : orbsys) := convert_case (shape_aaa s) w_aaa.
Definition convert_t3_aab (s : orbsys) := convert_case (shape_aab s) w_aab.
Definition convert_t3_abb (s : orbsys) := convert_case (shape_abb s) w_abb.
Definition convert_t3_bbb (s : orbsys) := convert_case (shape_bbb s) w_bbb.

(** unravel_3p2h_amplitudes: FockOperator(system, 3, 2), array axes (a, b, c, j, k). *)
(** utilities.py 155-166 *)
Definition w3p2h_aaa : writes := fun row => match row with
  | [a; b; c; j; k] =>
    [([a; b; c; j; k], false); ([a; c; b; j; k], true); ([b; c; a; j; k], false); ([b; a; c; j; k], true);
     ([c; a; b; j; k], false); ([c; b; a; j; k], true); ([a; b; c; k; j], true); ([a; c; b; k; j], false);
     ([b; c; a; k; j], true); ([b; a; c; k; j], false); ([c; a; b; k; j], true); ([c; b; a; k; j], false)]
  | _ => [] end.
(** utilities.py 171-172 *)
Definition w3p2h_aab : writes := fun row => match row with
  | [a; b; c; j; k] =>
    [([a; b; c; j; k], false); ([b; a; c; j; k], true)]
  | _ => [] end.
(** utilities.py 177-180 *)
Definition w3p2h_abb : writes := fun row => match row with
  | [a; b; c; j; k] =>
    [([a; b; c; j; k], false); ([a; c; b; j; k], true); ([a; b; c; k; j], true); ([a; c; b; k; j], false)]
  | _ => [] end.
(** Shapes: FockOperator of operators.py 182-280 puts the added index first, then the particle-conserving block. *)
Definition shape3p2h_aaa (s : orbsys) := [nu_a s; nu_a s; nu_a s; no_a s; no_a s].
Definition shape3p2h_aab (s : orbsys) := [nu_a s; nu_a s; nu_b s; no_a s; no_b s].
Definition shape3p2h_abb (s : orbsys) := [nu_a s; nu_b s; nu_b s; no_b s; no_b s].

(** unravel_3h2p_amplitudes: FockOperator(system, 2, 3), array axes (i, b, c, j, k), rows (b, c, i, j, k). *)
(** utilities.py 199-210 *)
Definition w3h2p_aaa : writes := fun row => match row with
  | [b; c; i; j; k] =>
    [([i; b; c; j; k], false); ([i; b; c; k; j], true); ([j; b; c; k; i], false); ([j; b; c; i; k], true);
     ([k; b; c; i; j], false); ([k; b; c; j; i], true); ([i; c; b; j; k], true); ([i; c; b; k; j], false);
     ([j; c; b; k; i], true); ([j; c; b; i; k], false); ([k; c; b; i; j], true); ([k; c; b; j; i], false)]
  | _ => [] end.
(** utilities.py 215-216 *)
Definition w3h2p_aab : writes := fun row => match row with
  | [b; c; i; j; k] =>
    [([i; b; c; j; k], false); ([j; b; c; i; k], true)]
  | _ => [] end.
(** utilities.py 221-224 *)
Definition w3h2p_abb : writes := fun row => match row with
  | [b; c; i; j; k] =>
    [([i; b; c; j; k], false); ([j; b; c; i; k], true); ([i; c; b; j; k], true); ([j; c; b; i; k], false)]
  | _ => [] end.
Definition shape3h2p_aaa (s : orbsys) := [no_a s; nu_a s; nu_a s; no_a s; no_a s].
Definition shape3h2p_aab (s : orbsys) := [no_a s; nu_a s; nu_b s; no_a s; no_b s].
Definition shape3h2p_abb (s : orbsys) := [no_a s; nu_b s; nu_b s; no_b s; no_b s].

(** utilities.py 149-181 and 183-225, one spin case each; [do] is do_r3[case]. *)
Definition unravel_3p2h_aaa (s : orbsys) := unravel (shape3p2h_aaa s) w3p2h_aaa.
Definition unravel_3p2h_aab (s : orbsys) := unravel (shape3p2h_aab s) w3p2h_aab.
Definition unravel_3p2h_abb (s : orbsys) := unravel (shape3p2h_abb s) w3p2h_abb.
Definition unravel_3h2p_aaa (s : orbsys) := unravel (shape3h2p_aaa s) w3h2p_aaa.
Definition unravel_3h2p_aab (s : orbsys) := unravel (shape3h2p_aab s) w3h2p_aab.
Definition unravel_3h2p_abb (s : orbsys) := unravel (shape3h2p_abb s) w3h2p_abb.

(** ** Active-space zeroing *)
(** active_space.py 151-191 *)
Definition z_aaa : list nat -> list (list nat) := fun row => match row with
  | [a; b; c; i; j; k] =>
    [[a; b; c; i; j; k]; [a; b; c; j; i; k]; [a; b; c; j; k; i]; [a; b; c; i; k; j]; [a; b; c; k; j; i];
     [a; b; c; k; i; j]; [a; c; b; i; j; k]; [a; c; b; j; i; k]; [a; c; b; j; k; i]; [a; c; b; i; k; j];
     [a; c; b; k; j; i]; [a; c; b; k; i; j]; [b; a; c; i; j; k]; [b; a; c; j; i; k]; [b; a; c; j; k; i];
     [b; a; c; i; k; j]; [b; a; c; k; j; i]; [b; a; c; k; i; j]; [b; c; a; i; j; k]; [b; c; a; j; i; k];
     [b; c; a; j; k; i]; [b; c; a; i; k; j]; [b; c; a; k; j; i]; [b; c; a; k; i; j]; [c; a; b; i; j; k];
     [c; a; b; j; i; k]; [c; a; b; j; k; i]; [c; a; b; i; k; j]; [c; a; b; k; j; i]; [c; a; b; k; i; j];
     [c; b; a; i; j; k]; [c; b; a; j; i; k]; [c; b; a; j; k; i]; [c; b; a; i; k; j]; [c; b; a; k; j; i];
     [c; b; a; k; i; j]]
  | _ => [] end.
(** active_space.py 214-217 *)
Definition z_aab : list nat -> list (list nat) := fun row => match row with
  | [a; b; c; i; j; k] =>
    [[a; b; c; i; j; k]; [b; a; c; i; j; k]; [a; b; c; j; i; k]; [b; a; c; j; i; k]]
  | _ => [] end.
(** active_space.py 239-242 *)
Definition z_abb : list nat -> list (list nat) := fun row => match row with
  | [a; b; c; i; j; k] =>
    [[a; b; c; i; j; k]; [a; c; b; i; j; k]; [a; b; c; i; k; j]; [a; c; b; i; k; j]]
  | _ => [] end.
(** active_space.py 264-304 *)
Definition z_bbb : list nat -> list (list nat) := fun row => match row with
  | [a; b; c; i; j; k] =>
    [[a; b; c; i; j; k]; [a; b; c; j; i; k]; [a; b; c; j; k; i]; [a; b; c; i; k; j]; [a; b; c; k; j; i];
     [a; b; c; k; i; j]; [a; c; b; i; j; k]; [a; c; b; j; i; k]; [a; c; b; j; k; i]; [a; c; b; i; k; j];
     [a; c; b; k; j; i]; [a; c; b; k; i; j]; [b; a; c; i; j; k]; [b; a; c; j; i; k]; [b; a; c; j; k; i];
     [b; a; c; i; k; j]; [b; a; c; k; j; i]; [b; a; c; k; i; j]; [b; c; a; i; j; k]; [b; c; a; j; i; k];
     [b; c; a; j; k; i]; [b; c; a; i; k; j]; [b; c; a; k; j; i]; [b; c; a; k; i; j]; [c; a; b; i; j; k];
     [c; a; b; j; i; k]; [c; a; b; j; k; i]; [c; a; b; i; k; j]; [c; a; b; k; j; i]; [c; a; b; k; i; j];
     [c; b; a; i; j; k]; [c; b; a; j; i; k]; [c; b; a; j; k; i]; [c; b; a; i; k; j]; [c; b; a; k; j; i];
     [c; b; a; k; i; j]]
  | _ => [] end.
Definition zero_row (shape : list nat) (T : option tensor) (idxs : list (list nat)) : option tensor :=
  fold_left (fun T idx => write shape T idx 0%R) idxs T.
(** zero_t3aaa_outside_active_space, active_space.py 132-192: the effect on T.aaa. *)
Definition zero_t3aaa (s : orbsys) (num_act : nat) (T : tensor) : option tensor :=
  fold_left (fun T p => match p with [a; b; c] =>
    fold_left (fun T h => match h with [i; j; k] =>
      let active_h := active_hole i (no_a s) (nacto_a s) + active_hole j (no_a s) (nacto_a s) + active_hole k (no_a s) (nacto_a s) in
      let active_p := active_particle a (nactu_a s) + active_particle b (nactu_a s) + active_particle c (nactu_a s) in
      if (active_h <? num_act) || (active_p <? num_act) then zero_row (shape_aaa s) T (z_aaa [a; b; c; i; j; k]) else T
      | _ => T end) (nest [] [(None, no_a s); (Some 0, no_a s); (Some 1, no_a s)]) T | _ => T end)
    (nest [] [(None, nu_a s); (Some 0, nu_a s); (Some 1, nu_a s)]) (Some T).
(** zero_t3aab_outside_active_space, active_space.py 194-218: the effect on T.aab. *)
Definition zero_t3aab (s : orbsys) (num_act : nat) (T : tensor) : option tensor :=
  fold_left (fun T p => match p with [a; b; c] =>
    fold_left (fun T h => match h with [i; j; k] =>
      let active_h := active_hole i (no_a s) (nacto_a s) + active_hole j (no_a s) (nacto_a s) + active_hole k (no_b s) (nacto_b s) in
      let active_p := active_particle a (nactu_a s) + active_particle b (nactu_a s) + active_particle c (nactu_b s) in
      if (active_h <? num_act) || (active_p <? num_act) then zero_row (shape_aab s) T (z_aab [a; b; c; i; j; k]) else T
      | _ => T end) (nest [] [(None, no_a s); (Some 0, no_a s); (None, no_b s)]) T | _ => T end)
    (nest [] [(None, nu_a s); (Some 0, nu_a s); (None, nu_b s)]) (Some T).
(** zero_t3abb_outside_active_space, active_space.py 220-243: the effect on T.abb. *)
Definition zero_t3abb (s : orbsys) (num_act : nat) (T : tensor) : option tensor :=
  fold_left (fun T p => match p with [a; b; c] =>
    fold_left (fun T h => match h with [i; j; k] =>
      let active_h := active_hole i (no_a s) (nacto_a s) + active_hole j (no_b s) (nacto_b s) + active_hole k (no_b s) (nacto_b s) in
      let active_p := active_particle a (nactu_a s) + active_particle b (nactu_b s) + active_particle c (nactu_b s) in
      if (active_h <? num_act) || (active_p <? num_act) then zero_row (shape_abb s) T (z_abb [a; b; c; i; j; k]) else T
      | _ => T end) (nest [] [(None, no_a s); (None, no_b s); (Some 1, no_b s)]) T | _ => T end)
    (nest [] [(None, nu_a s); (None, nu_b s); (Some 1, nu_b s)]) (Some T).
(** zero_t3bbb_outside_active_space, active_space.py 246-304: the effect on T.bbb. *)
Definition zero_t3bbb (s : orbsys) (num_act : nat) (T : tensor) : option tensor :=
  fold_left (fun T p => match p with [a; b; c] =>
    fold_left (fun T h => match h with [i; j; k] =>
      let active_h := active_hole i (no_b s) (nacto_b s) + active_hole j (no_b s) (nacto_b s) + active_hole k (no_b s) (nacto_b s) in
      let active_p := active_particle a (nactu_b s) + active_particle b (nactu_b s) + active_particle c (nactu_b s) in
      if (active_h <? num_act) || (active_p <? num_act) then zero_row (shape_bbb s) T (z_bbb [a; b; c; i; j; k]) else T
      | _ => T end) (nest [] [(None, no_b s); (Some 0, no_b s); (Some 1, no_b s)]) T | _ => T end)
    (nest [] [(None, nu_b s); (Some 0, nu_b s); (Some 1, nu_b s)]) (Some T).
