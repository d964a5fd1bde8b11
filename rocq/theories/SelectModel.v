(** Model of add_spinorbital_triples_to_pspace (ccpy/utilities/selection.py 5-116) and of the moment-based selection:
    the buffer code of ccp3{a,b,c,d}_2ba_with_selection_opt (ccpy/lib/fortran/ccp3_adaptive_loops.f90 66, 171-186 and the same text in
    the other routines) driven by calc_ccp3_2ba_with_selection (ccpy/moments/ccp3.py 196-202, 292-295). *)
From Coq Require Import List Arith Bool NArith Reals Permutation.
From Verif Require Import SortModel.
Import ListNotations.

Definition row := list nat.
Inductive spincase := aaa | aab | abb | bbb.
Definition spincase_eqb (x y : spincase) : bool :=
  match x, y with aaa, aaa | aab, aab | abb, abb | bbb, bbb => true | _, _ => false end.
(** t3_excitations: dictionary of row arrays. *)
Definition lists := spincase -> list row.
Definition set_list (l : lists) (s : spincase) (v : list row) : lists := fun x => if spincase_eqb x s then v else l x.

(** spatial_orb_idx, ccpy/utilities/determinants.py 25-29 (x >= 0). *)
Definition spatial_orb_idx (x : nat) : nat := if x mod 2 =? 1 then (x + 1) / 2 else x / 2.
(** int(sum(x % 2) / 2), line 58. *)
Definition num_alpha (t : row) : nat := list_sum (map (fun x => x mod 2) t) / 2.

Definition row_eq_dec : forall x y : row, {x = y} + {x <> y} := list_eq_dec Nat.eq_dec.
(** _add_t3_excitations, lines 11-20.  [old[0,:]] of an empty array is an IndexError: None. *)
Definition add_t3_excitations (new_rows old_rows : list row) (num_add : nat) : option (list row) :=
  if 0 <? num_add then
    match old_rows with
    | [] => None
    | r :: _ => if row_eq_dec r [1; 1; 1; 1; 1; 1] then Some new_rows else Some (old_rows ++ new_rows)
    end
  else Some old_rows.

(** The parts of the system object read by _get_excitation_symmetry; [irrep p] is the number of the irrep of correlated orbital p
    (from 0).  Simplified: looking up an orbital past the end of the list (IndexError) is not modelled. *)
Record symdata := { irrep : nat -> N; ref_irrep : N; nocc_a : nat; nocc_b : nat }.
(** _get_excitation_symmetry, lines 22-44; arguments are the 0-based indices. *)
Definition excitation_symmetry (y : symdata) (t : row) (s : spincase) : N :=
  match t with
  | [a; b; c; i; j; k] =>
      let sym := N.lxor (N.lxor (N.lxor (ref_irrep y) (irrep y i)) (irrep y j)) (irrep y k) in
      let (oa, ob) := (nocc_a y, nocc_b y) in
      match s with
      | aaa => N.lxor (N.lxor (N.lxor sym (irrep y (a + oa))) (irrep y (b + oa))) (irrep y (c + oa))
      | aab => N.lxor (N.lxor (N.lxor sym (irrep y (a + oa))) (irrep y (b + oa))) (irrep y (c + ob))
      | abb => N.lxor (N.lxor (N.lxor sym (irrep y (a + oa))) (irrep y (b + ob))) (irrep y (c + ob))
      | bbb => N.lxor (N.lxor (N.lxor sym (irrep y (a + ob))) (irrep y (b + ob))) (irrep y (c + ob))
      end
  | _ => 0%N
  end.
(** excitation_count_by_symmetry[sym][spincase] *)
Definition counts := N -> spincase -> nat.
Definition count_one (n : counts) (sym : N) (s : spincase) : counts :=
  fun y x => if N.eqb y sym && spincase_eqb x s then S (n y x) else n y x.

(** Loop state: new_t3_excitations with its counters n3aaa.., and the counts by symmetry. *)
Record addstate := { new_lists : lists; new_nums : spincase -> nat; by_symmetry : counts }.
(** new_t3_excitations[s].append(...); n3s += 1; excitation_count_by_symmetry[sym][s] += 1.  [t] holds 0-based indices. *)
Definition append (y : symdata) (s : spincase) (t : row) (st : addstate) : addstate :=
  {| new_lists := set_list (new_lists st) s (new_lists st s ++ [map S t]);
     new_nums := fun x => if spincase_eqb x s then S (new_nums st s) else new_nums st x;
     by_symmetry := count_one (by_symmetry st) (excitation_symmetry y t s) s |}.
(** Body of the loop, lines 57-107, for one row of triples_list.  A row with a number of entries other than six is an error and is
    skipped here; no caller makes one. *)
Definition add_one (y : symdata) (RHF_symmetry : bool) (st : addstate) (triple : row) : addstate :=
  let na := num_alpha triple in
  if forallb (fun x => spatial_orb_idx x =? 0) triple then st      (* every spatial index - 1 is -1 *)
  else
    match map (fun x => spatial_orb_idx x - 1) triple with
    | [a; b; c; i; j; k] =>
        let st := if na =? 3 then
                    let st := append y aaa [a; b; c; i; j; k] st in
                    if RHF_symmetry then append y bbb [a; b; c; i; j; k] st else st
                  else st in
        let st := if na =? 2 then
                    let st := append y aab [a; b; c; i; j; k] st in
                    if RHF_symmetry then append y abb [c; a; b; k; i; j] st else st
                  else st in
        if negb RHF_symmetry then
          let st := if na =? 1 then append y abb [a; b; c; i; j; k] st else st in
          if na =? 0 then append y bbb [a; b; c; i; j; k] st else st
        else st
    | _ => st
    end.
Definition add_loop (y : symdata) (rhf : bool) (triples_list : list row) (n : counts) : addstate :=
  fold_left (add_one y rhf) triples_list {| new_lists := fun _ => []; new_nums := fun _ => 0; by_symmetry := n |}.

(** add_spinorbital_triples_to_pspace, lines 46-116. *)
Definition add_spinorbital_triples_to_pspace (y : symdata) (rhf : bool) (triples_list : list row) (old : lists) (n : counts)
  : option (lists * counts) :=
  let st := add_loop y rhf triples_list n in
  match add_t3_excitations (new_lists st aaa) (old aaa) (new_nums st aaa),
        add_t3_excitations (new_lists st aab) (old aab) (new_nums st aab),
        add_t3_excitations (new_lists st abb) (old abb) (new_nums st abb),
        add_t3_excitations (new_lists st bbb) (old bbb) (new_nums st bbb) with
  | Some la, Some lb, Some lc, Some ld =>
      Some ((fun s => match s with aaa => la | aab => lb | abb => lc | bbb => ld end), by_symmetry st)
  | _, _, _, _ => None
  end.

(** ** Moment selection *)
Local Open Scope R_scope.
(** An entry of the two parallel arrays triples_list and moments. *)
Definition entry := (row * R)%type.
Definition unset : entry := ([0; 0; 0; 0; 0; 0]%nat, 0).
Record buffer := { b_entries : list entry; b_fill : nat; b_min : R }.
(** moments(nfill) = ..., triples_list(nfill,:) = ... *)
Definition put {A} (l : list A) (p : nat) (x : A) : list A := firstn (p - 1) l ++ x :: skipn p l.
(** argsort_r8_descend(abs(moments)) applied to both arrays. *)
Definition sort_buffer (l : list entry) : list entry := take unset l (argsort_r8_descend (map (fun e => Rabs (snd e)) l)).
Section Buffer.
Variables (buf_fact num_add : nat) (min_thresh : R).
(** One triple outside the P space with its LM/D, lines 168-186. *)
Definition offer (b : buffer) (x : entry) : buffer :=
  if Rle_dec (Rabs (snd x)) min_thresh then b
  else if (b_fill b <=? buf_fact * num_add)%nat then
    if Rle_dec (b_min b) (Rabs (snd x)) then
      {| b_entries := put (b_entries b) (b_fill b) x; b_fill := S (b_fill b); b_min := b_min b |}
    else b
  else
    let sorted := sort_buffer (b_entries b) in
    {| b_entries := sorted; b_fill := S num_add; b_min := Rabs (snd (nth (num_add - 1) sorted unset)) |}.
(** One spin case: minval is read from the buffer (line 66), then the triples are met in loop order. *)
Definition spin_case_pass (b : buffer) (stream : list entry) : buffer :=
  fold_left offer stream
    {| b_entries := b_entries b; b_fill := b_fill b; b_min := Rabs (snd (nth (num_add - 1) (b_entries b) unset)) |}.
(** ccp3.py 196-202 and the calls for the spin cases. *)
Definition selection_buffer (streams : list (list entry)) : buffer :=
  fold_left spin_case_pass streams {| b_entries := repeat unset (buf_fact * num_add); b_fill := 1; b_min := 0 |}.
(** ccp3.py 292-295: the first num_add entries in descending order of |moment|.  numpy's argsort does not fix the order of equal keys,
    so the result is any list obtained from an index vector [idx] that sorts in ascending order. *)
Definition selection_result (streams : list (list entry)) (result : list entry) : Prop :=
  let l := b_entries (selection_buffer streams) in
  exists idx, Permutation (seq 0 (length l)) idx /\
    (forall p q, (p < q < length idx)%nat -> Rabs (snd (nth (nth p idx 0%nat) l unset)) <= Rabs (snd (nth (nth q idx 0%nat) l unset))) /\
    result = firstn num_add (map (fun i => nth i l unset) (rev idx)).
End Buffer.
