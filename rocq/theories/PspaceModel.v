(** Model of the P- and Q-space constructors of ccpy/utilities/pspace.py (get_active_triples_pspace 603-749,
    get_active_3p2h_pspace 752-866, get_active_3h2p_pspace 869-982, get_active_4p2h_pspace 985-1105, overlap_p_spaces
    1107-1113) and ccpy/utilities/qspace.py (get_triples_qspace 4-154, get_active_triples_qspace 156-298).
    A nest of for-loops that only appends is the list of the appended rows, in order.  Simplified: printing dropped;
    [osym] is a total function (point_group_irrep_to_number of orbital_symmetries, no IndexError). *)
From Coq Require Import List Arith NArith Bool.
Import ListNotations.

(** What the routines read from the System object. *)
Record orbsys := mkOrb {
  no_a : nat; no_b : nat; nu_a : nat; nu_b : nat;                    (* noccupied_alpha ... nunoccupied_beta *)
  nacto_a : nat; nacto_b : nat; nactu_a : nat; nactu_b : nat;        (* num_act_occupied_alpha ... *)
  osym : nat -> N; refsym : N }.

(** range(lo, hi) *)
Definition range (lo hi : nat) : list nat := seq lo (hi - lo).

(** A nest of for-loops: each loop runs from 0, or from one above the value of an earlier loop variable (given by its
    position), up to its bound.  Yields the lists of loop variables in the order of execution. *)
Fixpoint nest (env : list nat) (loops : list (option nat * nat)) : list (list nat) :=
  match loops with
  | [] => [env]
  | (start, n) :: r =>
      flat_map (fun x => nest (env ++ [x]) r) (range (match start with None => 0 | Some p => nth p env 0 + 1 end) n)
  end.

(** active_space.py, active_hole 17-21 and active_particle 23-27. *)
Definition active_hole (x nocc nact : nat) : nat := if x <? nocc - nact then 0 else 1.
Definition active_particle (x nact : nat) : nat := if x <? nact then 1 else 0.
(** count_active_* closures, pspace.py 616-626. *)
Definition count_occ_a (s : orbsys) (l : list nat) : nat := list_sum (map (fun i => active_hole i (no_a s) (nacto_a s)) l).
Definition count_occ_b (s : orbsys) (l : list nat) : nat := list_sum (map (fun i => active_hole i (no_b s) (nacto_b s)) l).
Definition count_unocc_a (s : orbsys) (l : list nat) : nat := list_sum (map (fun a => active_particle a (nactu_a s)) l).
Definition count_unocc_b (s : orbsys) (l : list nat) : nat := list_sum (map (fun a => active_particle a (nactu_b s)) l).

(** checksym_*: target None is sym_target = -1; [orbs] are the indices into orbital_symmetries in textual order. *)
Definition checksym (s : orbsys) (target : option N) (orbs : list nat) : bool :=
  match target with
  | None => true
  | Some t => N.eqb (fold_left (fun acc o => N.lxor acc (osym s o)) orbs (refsym s)) t
  end.

(** [np.asarray(...)], and [np.ones((1, width))] for an empty list. *)
Definition finish (width : nat) (rows : list (list nat)) : list (list nat) :=
  match rows with [] => [repeat 1 width] | _ => rows end.

Definition emit (b : bool) (row : list nat) : list (list nat) := if b then [row] else [].

(** ** get_active_triples_pspace *)
(** 694-704 *)
Definition active_p_aaa (s : orbsys) (num_active : nat) (target : option N) : list (list nat) :=
  flat_map (fun h => match h with [i; j; k] =>
    if count_occ_a s [i; j; k] <? num_active then [] else
    flat_map (fun p => match p with [a; b; c] =>
      if num_active <=? count_unocc_a s [a; b; c]
      then emit (checksym s target [i; j; k; a + no_a s; b + no_a s; c + no_a s]) [a + 1; b + 1; c + 1; i + 1; j + 1; k + 1]
      else [] | _ => [] end) (nest [] [(None, nu_a s); (Some 0, nu_a s); (Some 1, nu_a s)]) | _ => [] end)
    (nest [] [(None, no_a s); (Some 0, no_a s); (Some 1, no_a s)]).
(** 705-715 *)
Definition active_p_aab (s : orbsys) (num_active : nat) (target : option N) : list (list nat) :=
  flat_map (fun h => match h with [i; j; k] =>
    if count_occ_a s [i; j] + count_occ_b s [k] <? num_active then [] else
    flat_map (fun p => match p with [a; b; c] =>
      if num_active <=? count_unocc_a s [a; b] + count_unocc_b s [c]
      then emit (checksym s target [i; j; k; a + no_a s; b + no_a s; c + no_b s]) [a + 1; b + 1; c + 1; i + 1; j + 1; k + 1]
      else [] | _ => [] end) (nest [] [(None, nu_a s); (Some 0, nu_a s); (None, nu_b s)]) | _ => [] end)
    (nest [] [(None, no_a s); (Some 0, no_a s); (None, no_b s)]).
(** 716-726 *)
Definition active_p_abb (s : orbsys) (num_active : nat) (target : option N) : list (list nat) :=
  flat_map (fun h => match h with [i; j; k] =>
    if count_occ_a s [i] + count_occ_b s [j; k] <? num_active then [] else
    flat_map (fun p => match p with [a; b; c] =>
      if num_active <=? count_unocc_a s [a] + count_unocc_b s [b; c]
      then emit (checksym s target [i; j; k; a + no_a s; b + no_b s; c + no_b s]) [a + 1; b + 1; c + 1; i + 1; j + 1; k + 1]
      else [] | _ => [] end) (nest [] [(None, nu_a s); (None, nu_b s); (Some 1, nu_b s)]) | _ => [] end)
    (nest [] [(None, no_a s); (None, no_b s); (Some 1, no_b s)]).
(** 727-737 *)
Definition active_p_bbb (s : orbsys) (num_active : nat) (target : option N) : list (list nat) :=
  flat_map (fun h => match h with [i; j; k] =>
    if count_occ_b s [i; j; k] <? num_active then [] else
    flat_map (fun p => match p with [a; b; c] =>
      if num_active <=? count_unocc_b s [a; b; c]
      then emit (checksym s target [i; j; k; a + no_b s; b + no_b s; c + no_b s]) [a + 1; b + 1; c + 1; i + 1; j + 1; k + 1]
      else [] | _ => [] end) (nest [] [(None, nu_b s); (Some 0, nu_b s); (Some 1, nu_b s)]) | _ => [] end)
    (nest [] [(None, no_b s); (Some 0, no_b s); (Some 1, no_b s)]).
(** The returned dictionary, 738-749, in the order aaa, aab, abb, bbb. *)
Definition get_active_triples_pspace (s : orbsys) (num_active : nat) (target : option N) :=
  (finish 6 (active_p_aaa s num_active target), finish 6 (active_p_aab s num_active target),
   finish 6 (active_p_abb s num_active target), finish 6 (active_p_bbb s num_active target)).

(** ** get_active_triples_qspace (qspace.py) *)
(** 247-256 *)
Definition active_q_aaa (s : orbsys) (num_active : nat) (target : option N) : list (list nat) :=
  flat_map (fun h => match h with [i; j; k] =>
    flat_map (fun p => match p with [a; b; c] =>
      if (count_unocc_a s [a; b; c] <? num_active) || (count_occ_a s [i; j; k] <? num_active)
      then emit (checksym s target [i; j; k; a + no_a s; b + no_a s; c + no_a s]) [a + 1; b + 1; c + 1; i + 1; j + 1; k + 1]
      else [] | _ => [] end) (nest [] [(None, nu_a s); (Some 0, nu_a s); (Some 1, nu_a s)]) | _ => [] end)
    (nest [] [(None, no_a s); (Some 0, no_a s); (Some 1, no_a s)]).
(** 257-266 *)
Definition active_q_aab (s : orbsys) (num_active : nat) (target : option N) : list (list nat) :=
  flat_map (fun h => match h with [i; j; k] =>
    flat_map (fun p => match p with [a; b; c] =>
      if (count_unocc_a s [a; b] + count_unocc_b s [c] <? num_active) || (count_occ_a s [i; j] + count_occ_b s [k] <? num_active)
      then emit (checksym s target [i; j; k; a + no_a s; b + no_a s; c + no_b s]) [a + 1; b + 1; c + 1; i + 1; j + 1; k + 1]
      else [] | _ => [] end) (nest [] [(None, nu_a s); (Some 0, nu_a s); (None, nu_b s)]) | _ => [] end)
    (nest [] [(None, no_a s); (Some 0, no_a s); (None, no_b s)]).
(** 267-276 *)
Definition active_q_abb (s : orbsys) (num_active : nat) (target : option N) : list (list nat) :=
  flat_map (fun h => match h with [i; j; k] =>
    flat_map (fun p => match p with [a; b; c] =>
      if (count_unocc_a s [a] + count_unocc_b s [b; c] <? num_active) || (count_occ_a s [i] + count_occ_b s [j; k] <? num_active)
      then emit (checksym s target [i; j; k; a + no_a s; b + no_b s; c + no_b s]) [a + 1; b + 1; c + 1; i + 1; j + 1; k + 1]
      else [] | _ => [] end) (nest [] [(None, nu_a s); (None, nu_b s); (Some 1, nu_b s)]) | _ => [] end)
    (nest [] [(None, no_a s); (None, no_b s); (Some 1, no_b s)]).
(** 277-286 *)
Definition active_q_bbb (s : orbsys) (num_active : nat) (target : option N) : list (list nat) :=
  flat_map (fun h => match h with [i; j; k] =>
    flat_map (fun p => match p with [a; b; c] =>
      if (count_unocc_b s [a; b; c] <? num_active) || (count_occ_b s [i; j; k] <? num_active)
      then emit (checksym s target [i; j; k; a + no_b s; b + no_b s; c + no_b s]) [a + 1; b + 1; c + 1; i + 1; j + 1; k + 1]
      else [] | _ => [] end) (nest [] [(None, nu_b s); (Some 0, nu_b s); (Some 1, nu_b s)]) | _ => [] end)
    (nest [] [(None, no_b s); (Some 0, no_b s); (Some 1, no_b s)]).
Definition get_active_triples_qspace (s : orbsys) (num_active : nat) (target : option N) :=
  (finish 6 (active_q_aaa s num_active target), finish 6 (active_q_aab s num_active target),
   finish 6 (active_q_abb s num_active target), finish 6 (active_q_bbb s num_active target)).

(** ** get_triples_qspace (qspace.py) *)
(** Boolean arrays of shape [shape], indexed by lists; np.full(..., True), lines 67-78. *)
Definition barray := list nat -> bool.
(** Python index x - 1 on an axis of length n, x >= 0: x = 0 wraps to the last element; IndexError = None. *)
Definition axis_index (n x : nat) : option nat :=
  match x with
  | O => match n with O => None | S m => Some m end
  | S y => if y <? n then Some y else None
  end.
Fixpoint axis_indices (shape row : list nat) : option (list nat) :=
  match shape, row with
  | [], [] => Some []
  | n :: sh, x :: r =>
      match axis_index n x, axis_indices sh r with Some y, Some ys => Some (y :: ys) | _, _ => None end
  | _, _ => None
  end.
Fixpoint list_eqb (l l' : list nat) : bool :=
  match l, l' with
  | [], [] => true
  | x :: r, y :: r' => (x =? y) && list_eqb r r'
  | _, _ => false
  end.
(** One assignment [qspace[...][a, b, c, i, j, k] = False], lines 82-83. *)
Definition clear_row (shape : list nat) (q : option barray) (row : list nat) : option barray :=
  match q with
  | None => None
  | Some q => match axis_indices shape row with
              | None => None
              | Some idx => Some (fun l => if list_eqb l idx then false else q l)
              end
  end.
(** The loop of lines 80-83: skipped altogether (every iteration continues) if the first row is the placeholder. *)
Definition mark_pspace (shape : list nat) (rows : list (list nat)) : option barray :=
  match rows with
  | [] => Some (fun _ => true)
  | first :: _ =>
      if list_eqb first (repeat 1 6) then Some (fun _ => true)
      else fold_left (clear_row shape) rows (Some (fun _ => true))
  end.
(** 103-112 *)
Definition q_aaa (s : orbsys) (target : option N) (pspace : list (list nat)) : option (list (list nat)) :=
  match mark_pspace [nu_a s; nu_a s; nu_a s; no_a s; no_a s; no_a s] pspace with
  | None => None
  | Some q => Some
  (flat_map (fun h => match h with [i; j; k] =>
    flat_map (fun p => match p with [a; b; c] =>
      if q [a; b; c; i; j; k]
      then emit (checksym s target [i; j; k; a + no_a s; b + no_a s; c + no_a s]) [a + 1; b + 1; c + 1; i + 1; j + 1; k + 1]
      else [] | _ => [] end) (nest [] [(None, nu_a s); (Some 0, nu_a s); (Some 1, nu_a s)]) | _ => [] end)
    (nest [] [(None, no_a s); (Some 0, no_a s); (Some 1, no_a s)]))
  end.
(** 113-122 *)
Definition q_aab (s : orbsys) (target : option N) (pspace : list (list nat)) : option (list (list nat)) :=
  match mark_pspace [nu_a s; nu_a s; nu_b s; no_a s; no_a s; no_b s] pspace with
  | None => None
  | Some q => Some
  (flat_map (fun h => match h with [i; j; k] =>
    flat_map (fun p => match p with [a; b; c] =>
      if q [a; b; c; i; j; k]
      then emit (checksym s target [i; j; k; a + no_a s; b + no_a s; c + no_b s]) [a + 1; b + 1; c + 1; i + 1; j + 1; k + 1]
      else [] | _ => [] end) (nest [] [(None, nu_a s); (Some 0, nu_a s); (None, nu_b s)]) | _ => [] end)
    (nest [] [(None, no_a s); (Some 0, no_a s); (None, no_b s)]))
  end.
(** 123-132 *)
Definition q_abb (s : orbsys) (target : option N) (pspace : list (list nat)) : option (list (list nat)) :=
  match mark_pspace [nu_a s; nu_b s; nu_b s; no_a s; no_b s; no_b s] pspace with
  | None => None
  | Some q => Some
  (flat_map (fun h => match h with [i; j; k] =>
    flat_map (fun p => match p with [a; b; c] =>
      if q [a; b; c; i; j; k]
      then emit (checksym s target [i; j; k; a + no_a s; b + no_b s; c + no_b s]) [a + 1; b + 1; c + 1; i + 1; j + 1; k + 1]
      else [] | _ => [] end) (nest [] [(None, nu_a s); (None, nu_b s); (Some 1, nu_b s)]) | _ => [] end)
    (nest [] [(None, no_a s); (None, no_b s); (Some 1, no_b s)]))
  end.
(** 133-142 *)
Definition q_bbb (s : orbsys) (target : option N) (pspace : list (list nat)) : option (list (list nat)) :=
  match mark_pspace [nu_b s; nu_b s; nu_b s; no_b s; no_b s; no_b s] pspace with
  | None => None
  | Some q => Some
  (flat_map (fun h => match h with [i; j; k] =>
    flat_map (fun p => match p with [a; b; c] =>
      if q [a; b; c; i; j; k]
      then emit (checksym s target [i; j; k; a + no_b s; b + no_b s; c + no_b s]) [a + 1; b + 1; c + 1; i + 1; j + 1; k + 1]
      else [] | _ => [] end) (nest [] [(None, nu_b s); (Some 0, nu_b s); (Some 1, nu_b s)]) | _ => [] end)
    (nest [] [(None, no_b s); (Some 0, no_b s); (Some 1, no_b s)]))
  end.
Definition get_triples_qspace (s : orbsys) (target : option N) (paaa paab pabb pbbb : list (list nat)) :=
  match q_aaa s target paaa, q_aab s target paab, q_abb s target pabb, q_bbb s target pbbb with
  | Some x, Some y, Some z, Some t => Some (finish 6 x, finish 6 y, finish 6 z, finish 6 t)
  | _, _, _, _ => None
  end.

(** ** get_active_3p2h_pspace; the assertion that alpha and beta active sizes agree (755-756) = None. *)
(** 827-835 *)
Definition active_3p2h_aaa (s : orbsys) (num_active : nat) (target : option N) : list (list nat) :=
  flat_map (fun p => match p with [a; b; c] =>
    if count_unocc_a s [a; b; c] <? num_active then [] else
    flat_map (fun h => match h with [j; k] =>
      emit (checksym s target [j; k; a + no_a s; b + no_a s; c + no_a s]) [a + 1; b + 1; c + 1; j + 1; k + 1]
      | _ => [] end) (nest [] [(None, no_a s); (Some 0, no_a s)]) | _ => [] end)
    (nest [] [(None, nu_a s); (Some 0, nu_a s); (Some 1, nu_a s)]).
(** 836-844 *)
Definition active_3p2h_aab (s : orbsys) (num_active : nat) (target : option N) : list (list nat) :=
  flat_map (fun p => match p with [a; b; c] =>
    if count_unocc_a s [a; b] + count_unocc_b s [c] <? num_active then [] else
    flat_map (fun h => match h with [j; k] =>
      emit (checksym s target [j; k; a + no_a s; b + no_a s; c + no_b s]) [a + 1; b + 1; c + 1; j + 1; k + 1]
      | _ => [] end) (nest [] [(None, no_a s); (None, no_b s)]) | _ => [] end)
    (nest [] [(None, nu_a s); (Some 0, nu_a s); (None, nu_b s)]).
(** 845-853 *)
Definition active_3p2h_abb (s : orbsys) (num_active : nat) (target : option N) : list (list nat) :=
  flat_map (fun p => match p with [a; b; c] =>
    if count_unocc_a s [a] + count_unocc_b s [b; c] <? num_active then [] else
    flat_map (fun h => match h with [j; k] =>
      emit (checksym s target [j; k; a + no_a s; b + no_b s; c + no_b s]) [a + 1; b + 1; c + 1; j + 1; k + 1]
      | _ => [] end) (nest [] [(None, no_b s); (Some 0, no_b s)]) | _ => [] end)
    (nest [] [(None, nu_a s); (None, nu_b s); (Some 1, nu_b s)]).
Definition same_active_sizes (s : orbsys) : bool := (nacto_a s =? nacto_b s) && (nactu_a s =? nactu_b s).
Definition get_active_3p2h_pspace (s : orbsys) (num_active : nat) (target : option N) :=
  if same_active_sizes s then
    Some (finish 5 (active_3p2h_aaa s num_active target), finish 5 (active_3p2h_aab s num_active target),
          finish 5 (active_3p2h_abb s num_active target))
  else None.

(** ** get_active_3h2p_pspace *)
(** 944-952 *)
Definition active_3h2p_aaa (s : orbsys) (num_active : nat) (target : option N) : list (list nat) :=
  flat_map (fun h => match h with [i; j; k] =>
    if count_occ_a s [i; j; k] <? num_active then [] else
    flat_map (fun p => match p with [b; c] =>
      emit (checksym s target [i; j; k; b + no_a s; c + no_a s]) [b + 1; c + 1; i + 1; j + 1; k + 1]
      | _ => [] end) (nest [] [(None, nu_a s); (Some 0, nu_a s)]) | _ => [] end)
    (nest [] [(None, no_a s); (Some 0, no_a s); (Some 1, no_a s)]).
(** 953-961 *)
Definition active_3h2p_aab (s : orbsys) (num_active : nat) (target : option N) : list (list nat) :=
  flat_map (fun h => match h with [i; j; k] =>
    if count_occ_a s [i; j] + count_occ_b s [k] <? num_active then [] else
    flat_map (fun p => match p with [b; c] =>
      emit (checksym s target [i; j; k; b + no_a s; c + no_b s]) [b + 1; c + 1; i + 1; j + 1; k + 1]
      | _ => [] end) (nest [] [(None, nu_a s); (None, nu_b s)]) | _ => [] end)
    (nest [] [(None, no_a s); (Some 0, no_a s); (None, no_b s)]).
(** 962-970 *)
Definition active_3h2p_abb (s : orbsys) (num_active : nat) (target : option N) : list (list nat) :=
  flat_map (fun h => match h with [i; j; k] =>
    if count_occ_a s [i] + count_occ_b s [j; k] <? num_active then [] else
    flat_map (fun p => match p with [b; c] =>
      emit (checksym s target [i; j; k; b + no_b s; c + no_b s]) [b + 1; c + 1; i + 1; j + 1; k + 1]
      | _ => [] end) (nest [] [(None, nu_b s); (Some 0, nu_b s)]) | _ => [] end)
    (nest [] [(None, no_a s); (None, no_b s); (Some 1, no_b s)]).
Definition get_active_3h2p_pspace (s : orbsys) (num_active : nat) (target : option N) :=
  if same_active_sizes s then
    Some (finish 5 (active_3h2p_aaa s num_active target), finish 5 (active_3h2p_aab s num_active target),
          finish 5 (active_3h2p_abb s num_active target))
  else None.

(** ** get_active_4p2h_pspace *)
(** 1063-1072 *)
Definition active_4p2h_abaa (s : orbsys) (num_active : nat) (target : option N) : list (list nat) :=
  flat_map (fun p => match p with [a; b; c; d] =>
    if count_unocc_a s [a; c; d] + count_unocc_b s [b] <? num_active then [] else
    flat_map (fun h => match h with [k; l] =>
      emit (checksym s target [k; l; a + no_a s; b + no_b s; c + no_a s; d + no_a s]) [a + 1; b + 1; c + 1; d + 1; k + 1; l + 1]
      | _ => [] end) (nest [] [(None, no_a s); (Some 0, no_a s)]) | _ => [] end)
    (nest [] [(None, nu_a s); (None, nu_b s); (Some 0, nu_a s); (Some 2, nu_a s)]).
(** 1073-1082 *)
Definition active_4p2h_abab (s : orbsys) (num_active : nat) (target : option N) : list (list nat) :=
  flat_map (fun p => match p with [a; b; c; d] =>
    if count_unocc_a s [a; c] + count_unocc_b s [b; d] <? num_active then [] else
    flat_map (fun h => match h with [k; l] =>
      emit (checksym s target [k; l; a + no_a s; b + no_b s; c + no_a s; d + no_b s]) [a + 1; b + 1; c + 1; d + 1; k + 1; l + 1]
      | _ => [] end) (nest [] [(None, no_a s); (None, no_b s)]) | _ => [] end)
    (nest [] [(None, nu_a s); (None, nu_b s); (Some 0, nu_a s); (Some 1, nu_b s)]).
(** 1083-1092 *)
Definition active_4p2h_abbb (s : orbsys) (num_active : nat) (target : option N) : list (list nat) :=
  flat_map (fun p => match p with [a; b; c; d] =>
    if count_unocc_a s [a] + count_unocc_b s [b; c; d] <? num_active then [] else
    flat_map (fun h => match h with [k; l] =>
      emit (checksym s target [k; l; a + no_a s; b + no_b s; c + no_b s; d + no_b s]) [a + 1; b + 1; c + 1; d + 1; k + 1; l + 1]
      | _ => [] end) (nest [] [(None, no_b s); (Some 0, no_b s)]) | _ => [] end)
    (nest [] [(None, nu_a s); (None, nu_b s); (Some 1, nu_b s); (Some 2, nu_b s)]).
Definition get_active_4p2h_pspace (s : orbsys) (num_active : nat) (target : option N) :=
  if same_active_sizes s then
    Some (finish 6 (active_4p2h_abaa s num_active target), finish 6 (active_4p2h_abab s num_active target),
          finish 6 (active_4p2h_abbb s num_active target))
  else None.

(** ** overlap_p_spaces: np.unique(np.vstack(...), axis=0) sorts the rows lexicographically and drops repetitions;
    [None] for excits1 stands for the empty Python list of the first call (returns excits2 itself). *)
Fixpoint row_lt (l l' : list nat) : bool :=
  match l, l' with
  | x :: r, y :: r' => (x <? y) || ((x =? y) && row_lt r r')
  | _, _ => false
  end.
Fixpoint insert_row (row : list nat) (l : list (list nat)) : list (list nat) :=
  match l with
  | [] => [row]
  | y :: r => if row_lt row y then row :: l else if list_eqb row y then l else y :: insert_row row r
  end.
Definition np_unique_rows (l : list (list nat)) : list (list nat) := fold_right insert_row [] l.
Definition overlap_p_spaces (excits1 : option (list (list nat))) (excits2 : list (list nat)) : list (list nat) :=
  match excits1 with
  | None => excits2
  | Some e1 => np_unique_rows (e1 ++ excits2)
  end.
