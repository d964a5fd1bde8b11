(** Model of ccpy/models/integrals.py, ccpy/energy/hf_energy.py (calc_khf_energy left out), ccpy/cholesky/cholesky_builders.py and the
    index arithmetic of ccpy/mrcc/normal_order.py.  Exact reals; an array is a function read below its dimensions, a slice [lo:hi] of an
    axis is the shift by lo; memory order and data types are left out. *)
From Coq Require Import Reals List Arith Bool.
From Verif Require Import RSum.
Import ListNotations.
Open Scope R_scope.
Definition mat2 := nat -> nat -> R.
Definition mat4 := nat -> nat -> nat -> nat -> R.
Definition mat3 := nat -> nat -> nat -> R.      (* Cholesky vectors R_chol[x, p, q] *)

(** The fields of System the routines read: nfrozen, noccupied_alpha, noccupied_beta, norbitals (correlated).
    nunoccupied_* is norbitals - noccupied_* (ccpy/models/system.py 127-136). *)
Record sysd := mkSys { s_nf : nat; s_noa : nat; s_nob : nat; s_norb : nat }.

(** ** SortedIntegral, integrals.py 5-35 *)
Inductive spin := Al | Be.
Inductive ov := Oc | Un.
(** get_operator_name(i, j), operators.py 360-361 *)
Definition operator_name (i j : nat) : list spin := repeat Al (i - j) ++ repeat Be j.
(** slice_table, lines 10-19: start and length of the axis *)
Definition nocc (s : sysd) (sp : spin) : nat := match sp with Al => s_noa s | Be => s_nob s end.
Definition sl_start (s : sysd) (sp : spin) (x : ov) : nat := match x with Oc => 0 | Un => nocc s sp end.
Definition sl_len (s : sysd) (sp : spin) (x : ov) : nat := match x with Oc => nocc s sp | Un => s_norb s - nocc s sp end.
(** itertools.combinations(range(n), k), as the standard recursion on the remaining indices (lexicographic order) *)
Fixpoint combs (k : nat) (l : list nat) : list (list nat) :=
  match k with
  | O => [[]]
  | S k' => (fix go (l : list nat) : list (list nat) := match l with [] => [] | x :: r => map (cons x) (combs k' r) ++ go r end) l
  end.
Fixpoint set_nth {A} (l : list A) (k : nat) (x : A) : list A :=
  match l, k with [], _ => [] | _ :: r, O => x :: r | y :: r, S k' => y :: set_nth r k' x end.
(** lines 24-26 *)
Definition attr_of (n : nat) (comb : list nat) : list ov := fold_left (fun a k => set_nth a k Un) comb (repeat Oc n).
(** lines 22-35: the attribute strings in the order they are set *)
Definition slices (n : nat) : list (list ov) := flat_map (fun i => map (attr_of n) (combs i (seq 0 n))) (seq 0 (n + 1)).
Fixpoint map2 {A B C} (f : A -> B -> C) (l : list A) (m : list B) : list C :=
  match l, m with x :: l', y :: m' => f x y :: map2 f l' m' | _, _ => [] end.
(** lines 27-33: the block of one attribute string: shape and elements; matrix takes the list of its indices *)
Definition block {V} (s : sysd) (name : list spin) (matrix : list nat -> V) (attr : list ov) : list nat * (list nat -> V) :=
  let spins := name ++ name in
  (map2 (sl_len s) spins attr, fun ix => matrix (map2 Nat.add (map2 (sl_start s) spins attr) ix)).
Definition sorted_integral {V} (s : sysd) (name : list spin) (matrix : list nat -> V) : list (list ov * (list nat * (list nat -> V))) :=
  map (fun attr => (attr, block s name matrix attr)) (slices (2 * length name)).

(** ** Antisymmetrised integrals and Fock matrix *)
Record two := mkTwo { t_aa : mat4; t_ab : mat4; t_bb : mat4 }.
Record one := mkOne { o_a : mat2; o_b : mat2 }.
(** build_v, lines 290-309 *)
Definition build_v (e2 : mat4) : two :=
  {| t_aa := fun p q r s => e2 p q r s - e2 p q s r; t_ab := e2; t_bb := fun p q r s => e2 p q r s - e2 p q s r |}.
(** build_f, lines 312-350 *)
Definition build_f (z : one) (v : two) (s : sysd) : one :=
  let na := (s_noa s + s_nf s)%nat in let nb := (s_nob s + s_nf s)%nat in
  {| o_a := fun p q => o_a z p q + sumn na (fun i => t_aa v p i q i) + sumn nb (fun i => t_ab v p i q i);
     o_b := fun p q => o_b z p q + sumn nb (fun i => t_bb v p i q i) + sumn na (fun i => t_ab v i p i q) |}.
Definition corr2 (s : sysd) (a : mat2) : mat2 := fun p q => a (s_nf s + p)%nat (s_nf s + q)%nat.
Definition corr4 (s : sysd) (a : mat4) : mat4 := fun p q r t => a (s_nf s + p)%nat (s_nf s + q)%nat (s_nf s + r)%nat (s_nf s + t)%nat.
Definition keep_correlated (s : sysd) (f : one) (v : two) : one * two :=
  ({| o_a := corr2 s (o_a f); o_b := corr2 s (o_b f) |}, {| t_aa := corr4 s (t_aa v); t_ab := corr4 s (t_ab v); t_bb := corr4 s (t_bb v) |}).
(** getHamiltonian, lines 67-83 (sorted=False; the sorted object holds the blocks of these matrices) *)
Definition get_hamiltonian (e1 : mat2) (e2 : mat4) (s : sysd) (normal_ordered : bool) : one * two :=
  let v := build_v e2 in
  let z := {| o_a := e1; o_b := e1 |} in
  keep_correlated s (if normal_ordered then build_f z v s else z) v.
(** getUHFHamiltonian, lines 85-111; n atomic orbitals *)
Definition trans2 (n : nat) (z : mat2) (c d : mat2) : mat2 := fun p q => sumn n (fun i => sumn n (fun j => z i j * c i p * d j q)).
Definition trans4 (n : nat) (v : mat4) (c1 c2 c3 c4 : mat2) : mat4 := fun p q r s =>
  sumn n (fun i => sumn n (fun j => sumn n (fun k => sumn n (fun l => v i j k l * c1 i p * c2 j q * c3 k r * c4 l s)))).
Definition uhf_v (n : nat) (ca cb : mat2) (v : mat4) : two :=
  {| t_aa := fun p q r s => trans4 n v ca ca ca ca p q r s - trans4 n v ca ca ca ca p q s r;
     t_ab := trans4 n v ca cb ca cb;
     t_bb := fun p q r s => trans4 n v cb cb cb cb p q r s - trans4 n v cb cb cb cb p q s r |}.
Definition get_uhf_hamiltonian (n : nat) (ca cb : mat2) (z_ao : mat2) (v_ao : mat4) (s : sysd) (normal_ordered : bool) : one * two :=
  let z := {| o_a := trans2 n z_ao ca ca; o_b := trans2 n z_ao cb cb |} in
  let v := uhf_v n ca cb v_ao in
  keep_correlated s (if normal_ordered then build_f z v s else z) v.

(** ** Sorted Hamiltonian objects: a block may be None *)
Inductive scase := AA | AB | BB.
Record ham := mkHam { h_one : spin -> ov -> ov -> option mat2; h_two : scase -> ov -> ov -> ov -> ov -> option mat4 }.
Definition pick1 (x : one) (sp : spin) : mat2 := match sp with Al => o_a x | Be => o_b x end.
Definition pick2 (v : two) (c : scase) : mat4 := match c with AA => t_aa v | AB => t_ab v | BB => t_bb v end.
Definition case_spins (c : scase) : spin * spin := match c with AA => (Al, Al) | AB => (Al, Be) | BB => (Be, Be) end.
Definition blk2 (s : sysd) (sp : spin) (x y : ov) (a : mat2) : mat2 := fun p q => a (sl_start s sp x + p)%nat (sl_start s sp y + q)%nat.
Definition blk4 (s : sysd) (c : scase) (w x y z : ov) (a : mat4) : mat4 :=
  let (u, v) := case_spins c in
  fun p q r t => a (sl_start s u w + p)%nat (sl_start s v x + q)%nat (sl_start s u y + r)%nat (sl_start s v z + t)%nat.
(** Integral(system, 2, matrices, sorted=True), lines 37-48 *)
Definition sort_hamiltonian (s : sysd) (H : one * two) : ham :=
  {| h_one := fun sp x y => Some (blk2 s sp x y (pick1 (fst H) sp)); h_two := fun c w x y z => Some (blk4 s c w x y z (pick2 (snd H) c)) |}.

(** ** Cholesky route *)
(** build_f_chol, lines 352-386; nx vectors *)
Definition build_f_chol (nx : nat) (e1 : mat2) (L : mat3) (s : sysd) : one :=
  let na := (s_noa s + s_nf s)%nat in let nb := (s_nob s + s_nf s)%nat in
  let coul m p q := sumn nx (fun x => L x p q * sumn m (fun i => L x i i)) in
  let exch m p q := sumn nx (fun x => sumn m (fun i => L x p i * L x i q)) in
  {| o_a := fun p q => e1 p q + (coul na p q - exch na p q + coul nb p q);
     o_b := fun p q => e1 p q + (coul nb p q - exch nb p q + sumn nx (fun x => sumn na (fun i => L x i i) * L x p q)) |}.
(** H.chol.<spin>.<xy>, lines 133, 140-149 *)
Definition chol_blk (s : sysd) (L : mat3) (sp : spin) (x y : ov) : mat3 :=
  fun c p q => L c (s_nf s + (sl_start s sp x + p))%nat (s_nf s + (sl_start s sp y + q))%nat.
(** np.einsum("xpr,xqs->pqrs", A, B) *)
Definition pqrs (nx : nat) (A B : mat3) : mat4 := fun p q r s => sumn nx (fun x => A x p r * B x q s).
(** Blocks of getCholeskyHamiltonian, lines 161-287.  Same spin, lines 164-193 / 209-238: each is a direct minus an exchange einsum,
    whose index letters are written out *)
Definition chol_same (nx : nat) (B : ov -> ov -> mat3) (w x y z : ov) : option mat4 :=
  match w, x, y, z with
  | Oc, Oc, Oc, Oc => Some (fun m n i j => sumn nx (fun x => B Oc Oc x m i * B Oc Oc x n j) - sumn nx (fun x => B Oc Oc x m j * B Oc Oc x n i))
  | Oc, Oc, Oc, Un => Some (fun m n i e => sumn nx (fun x => B Oc Oc x m i * B Oc Un x n e) - sumn nx (fun x => B Oc Oc x n i * B Oc Un x m e))
  | Un, Oc, Oc, Oc => Some (fun a m i j => sumn nx (fun x => B Un Oc x a i * B Oc Oc x m j) - sumn nx (fun x => B Un Oc x a j * B Oc Oc x m i))
  | Un, Oc, Oc, Un => Some (fun a m i e => sumn nx (fun x => B Un Oc x a i * B Oc Un x m e) - sumn nx (fun x => B Un Un x a e * B Oc Oc x m i))
  | Oc, Oc, Un, Un => Some (fun m n e f => sumn nx (fun x => B Oc Un x m e * B Oc Un x n f) - sumn nx (fun x => B Oc Un x m f * B Oc Un x n e))
  | Un, Un, Oc, Oc => Some (fun a b i j => sumn nx (fun x => B Un Oc x a i * B Un Oc x b j) - sumn nx (fun x => B Un Oc x a j * B Un Oc x b i))
  | _, _, _, _ => None
  end.
(** Opposite spin, lines 254-287 *)
Definition chol_opp (nx : nat) (A B : ov -> ov -> mat3) (w x y z : ov) : option mat4 :=
  match w, x, y, z with
  | Oc, Oc, Oc, Oc => Some (fun m n i j => sumn nx (fun x => A Oc Oc x m i * B Oc Oc x n j))
  | Oc, Oc, Oc, Un => Some (fun m n i e => sumn nx (fun x => A Oc Oc x m i * B Oc Un x n e))
  | Oc, Oc, Un, Oc => Some (fun m n e i => sumn nx (fun x => A Oc Un x m e * B Oc Oc x n i))
  | Un, Oc, Oc, Oc => Some (fun a m i j => sumn nx (fun x => A Un Oc x a i * B Oc Oc x m j))
  | Oc, Un, Oc, Oc => Some (fun m a j i => sumn nx (fun x => A Oc Oc x m j * B Un Oc x a i))
  | Un, Oc, Oc, Un => Some (fun a m i e => sumn nx (fun x => A Un Oc x a i * B Oc Un x m e))
  | Oc, Un, Un, Oc => Some (fun m a e i => sumn nx (fun x => A Oc Un x m e * B Un Oc x a i))
  | Un, Oc, Un, Oc => Some (fun a m e i => sumn nx (fun x => A Un Un x a e * B Oc Oc x m i))
  | Oc, Un, Oc, Un => Some (fun m b j e => sumn nx (fun x => A Oc Oc x m j * B Un Un x b e))
  | Oc, Oc, Un, Un => Some (fun m n e f => sumn nx (fun x => A Oc Un x m e * B Oc Un x n f))
  | Un, Un, Oc, Oc => Some (fun a b i j => sumn nx (fun x => A Un Oc x a i * B Un Oc x b j))
  | _, _, _, _ => None
  end.
(** getCholeskyHamiltonian, lines 113-288 *)
Definition get_cholesky_hamiltonian (nx : nat) (e1 : mat2) (L : mat3) (s : sysd) (normal_ordered : bool) : ham :=
  let f := if normal_ordered then build_f_chol nx e1 L s else {| o_a := e1; o_b := e1 |} in
  {| h_one := fun sp x y => Some (blk2 s sp x y (corr2 s (pick1 f sp)));
     h_two := fun c => match c with
        | AA => chol_same nx (chol_blk s L Al) | BB => chol_same nx (chol_blk s L Be)
        | AB => chol_opp nx (chol_blk s L Al) (chol_blk s L Be) end |}.
(** cholesky_builders.py 3-50, all eight; vv is H.chol.<spin>.vv *)
Definition batch_same (nx : nat) (vv : mat3) (a b : nat) : mat2 :=
  let t := fun e f => sumn nx (fun x => vv x a e * vv x b f) in fun e f => t e f - t f e.
Definition batch_ab (nx : nat) (va vb : mat3) (a b : nat) : mat2 := fun e f => sumn nx (fun x => va x a e * vb x b f).
Definition batch3_ab (nx : nat) (va vb : mat3) (a : nat) : mat3 := fun b e f => sumn nx (fun x => va x a e * vb x b f).
Definition batch_same_herm (nx : nat) (vv : mat3) (a b : nat) : mat2 :=
  let t := fun e f => sumn nx (fun x => vv x e a * vv x f b) in fun e f => t e f - t f e.
Definition batch3_ab_herm (nx : nat) (va vb : mat3) (a : nat) : mat3 := fun b e f => sumn nx (fun x => va x e a * vb x f b).
Definition batch_ab_herm (nx : nat) (va vb : mat3) (a b : nat) : mat2 := fun e f => sumn nx (fun x => va x e a * vb x f b).

(** ** Energies, hf_energy.py *)
(** the body shared by calc_hf_energy (46-65) and calc_hf_frozen_core_energy (79-101): na, nb occupied orbitals *)
Definition hf_sum (e1 : mat2) (e2 : mat4) (na nb : nat) : R :=
  let e1a := sumn na (fun i => e1 i i) in
  let e1b := sumn nb (fun i => e1 i i) in
  let e2a := / 2 * (sumn na (fun i => sumn na (fun j => e2 i j i j)) - sumn na (fun i => sumn na (fun j => e2 i j j i))) in
  let e2b := sumn na (fun i => sumn nb (fun j => e2 i j i j)) in
  let e2c := / 2 * (sumn nb (fun i => sumn nb (fun j => e2 i j i j)) - sumn nb (fun i => sumn nb (fun j => e2 i j j i))) in
  e1a + e1b + e2a + e2b + e2c.
Definition hf_energy (e1 : mat2) (e2 : mat4) (s : sysd) : R := hf_sum e1 e2 (s_noa s + s_nf s) (s_nob s + s_nf s).
Definition frozen_core_energy (e1 : mat2) (e2 : mat4) (s : sysd) : R :=
  if (s_nf s =? 0)%nat then 0 else hf_sum e1 e2 (s_nf s) (s_nf s).
(** calc_hf_energy_unsorted, 67-77; np.ix_ takes lists of orbitals *)
Definition lsum (l : list nat) (f : nat -> R) : R := fold_right (fun i r => f i + r) 0 l.
Definition hf_unsorted (H : one * two) (oa ob : list nat) : R :=
  lsum oa (fun i => o_a (fst H) i i) + lsum ob (fun i => o_b (fst H) i i)
  + / 2 * lsum oa (fun i => lsum oa (fun j => t_aa (snd H) i j i j))
  + lsum oa (fun i => lsum ob (fun j => t_ab (snd H) i j i j))
  + / 2 * lsum ob (fun i => lsum ob (fun j => t_bb (snd H) i j i j)).
(** calc_hf_energy_chol, 131-152 *)
Definition hf_energy_chol (nx : nat) (e1 : mat2) (L : mat3) (s : sysd) : R :=
  let na := (s_nf s + s_noa s)%nat in let nb := (s_nf s + s_nob s)%nat in
  let g_aa := fun m n i j => sumn nx (fun x => L x m i * L x n j) - sumn nx (fun x => L x m j * L x n i) in
  let g_ab := fun m n i j => sumn nx (fun x => L x m i * L x n j) in
  let g_bb := fun m n i j => sumn nx (fun x => L x m i * L x n j) - sumn nx (fun x => L x m j * L x n i) in
  sumn na (fun i => e1 i i) + sumn nb (fun i => e1 i i)
  + / 2 * sumn na (fun i => sumn na (fun j => g_aa i j i j))
  + sumn na (fun i => sumn nb (fun j => g_ab i j i j))
  + / 2 * sumn nb (fun i => sumn nb (fun j => g_bb i j i j)).
(** calc_g_matrix, 3-44: np.einsum of a None block is an error *)
Definition tr24 (n : nat) (a : option mat4) : option mat2 := match a with Some a => Some (fun p q => sumn n (fun i => a p i q i)) | None => None end.
Definition tr13 (n : nat) (a : option mat4) : option mat2 := match a with Some a => Some (fun p q => sumn n (fun i => a i p i q)) | None => None end.
Definition add2 (a b : option mat2) : option mat2 := match a, b with Some a, Some b => Some (fun p q => a p q + b p q) | _, _ => None end.
Definition g_matrix (s : sysd) (H : ham) : option (spin -> ov -> ov -> mat2) :=
  let v := h_two H in
  let blk sp x y := match sp with
    | Al => add2 (tr24 (s_noa s) (v AA x Oc y Oc)) (tr24 (s_nob s) (v AB x Oc y Oc))
    | Be => add2 (tr24 (s_nob s) (v BB x Oc y Oc)) (tr13 (s_noa s) (v AB Oc x Oc y)) end in
  match blk Al Oc Oc, blk Al Oc Un, blk Al Un Oc, blk Al Un Un, blk Be Oc Oc, blk Be Oc Un, blk Be Un Oc, blk Be Un Un with
  | Some a1, Some a2, Some a3, Some a4, Some b1, Some b2, Some b3, Some b4 =>
      Some (fun sp x y => match sp, x, y with
        | Al, Oc, Oc => a1 | Al, Oc, Un => a2 | Al, Un, Oc => a3 | Al, Un, Un => a4
        | Be, Oc, Oc => b1 | Be, Oc, Un => b2 | Be, Un, Oc => b3 | Be, Un, Un => b4 end)
  | _, _, _, _, _, _, _, _ => None
  end.

(** ** shift_normal_order, mrcc/normal_order.py 4-24 *)
(** One item of a numpy index tuple: a slice, or a list of integers *)
Inductive index_item := Slice | IntList (l : list nat).
(** Number of axes of a[items] for an array of ndim axes (numpy indexing): integer lists of one length n are broadcast together into a
    single axis, every slice and every axis not mentioned keeps one; None is IndexError (too many items, or lists of different lengths > 1). *)
Definition list_lengths (items : list index_item) : list nat :=
  flat_map (fun it => match it with IntList l => [length l] | Slice => [] end) items.
Definition index_ndim (ndim : nat) (items : list index_item) : option nat :=
  if (ndim <? length items)%nat then None
  else match filter (fun n => negb (n =? 1)%nat) (list_lengths items) with
       | n :: r => if forallb (fun m => m =? n)%nat r then Some (1 + (ndim - length (list_lengths items)))%nat else None
       | [] => Some ((if (0 <? length (list_lengths items))%nat then 1 else 0) + (ndim - length (list_lengths items)))%nat
       end.
(** np.einsum with the given number of subscripts for its operand: ValueError (None) when it differs from the number of axes *)
Definition einsum_axes (subscripts : nat) (operand : option nat) : option unit :=
  match operand with Some n => if (n =? subscripts)%nat then Some tt else None | None => None end.
Definition seq_opt (l : list (option unit)) : option unit := fold_left (fun a b => match a with Some _ => b | None => None end) l (Some tt).
(** The einsum calls in order; what they compute does not matter for whether they raise *)
Definition shift_calls (oa ob oap obp : list nat) : list (option unit) :=
  let c24 o := einsum_axes 4 (index_ndim 4 [Slice; IntList o; Slice; IntList o]) in    (* "piqi->pq" *)
  let c13 o := einsum_axes 4 (index_ndim 4 [IntList o; Slice; IntList o; Slice]) in    (* "ipiq->pq" *)
  (match oap with [] => [] | _ => [c24 oap; c13 oap] end)
  ++ (match obp with [] => [] | _ => [c24 obp; c24 obp] end)
  ++ [c24 oa; c13 oa; c24 ob; c24 ob].
Definition shift_normal_order_runs (oa ob oap obp : list nat) : option unit := seq_opt (shift_calls oa ob oap obp).
