(** Model of ccpy/models/operators.py. *)
From Coq Require Import List Arith Bool.
Import ListNotations.

(** Spin letters of attribute names such as "aab"; occupied/unoccupied letters of
    active-space slice names such as "VvVOOo". *)
Inductive letter := La | Lb.
Inductive olet := Lo | LO | LV | Lv.
Definition letter_eq_dec : forall x y : letter, {x = y} + {x <> y}.
Proof. decide equality. Defined.
Definition olet_eq_dec : forall x y : olet, {x = y} + {x <> y}.
Proof. decide equality. Defined.
Definition name := list letter.
Definition slice := list olet.
Definition name_eq_dec : forall x y : name, {x = y} + {x <> y} := list_eq_dec letter_eq_dec.
Definition slice_eq_dec : forall x y : slice, {x = y} + {x <> y} := list_eq_dec olet_eq_dec.

(** System attributes read by the operators (counts are the non-negative integers computed by
    ccpy/models/system.py; see SystemModel). *)
Record sysdims := {
  noa : nat; nob : nat; nua : nat; nub : nat; norb : nat;
  act_oa : nat; act_ob : nat; act_ua : nat; act_ub : nat
}.

(** np.prod of a tuple of dimensions. *)
Definition prod (dims : list nat) : nat := fold_right Nat.mul 1 dims.

Section Operators.
Variable A : Type.
Variable zero : A.

(** An ndarray: shape and entries in C (row-major) order, i.e. the result of [.flatten()].
    Memory order ("F") is not observable through flatten/reshape and is not modelled. *)
Record arr := mkArr { shape : list nat; data : list A }.
(** np.zeros(dims). *)
Definition zeros (dims : list nat) : arr := mkArr dims (repeat zero (prod dims)).
(** np.reshape(flat, dims): ValueError (None) unless the sizes agree. *)
Definition reshape (flat : list A) (dims : list nat) : option arr :=
  if length flat =? prod dims then Some (mkArr dims flat) else None.
(** Python slice v[lo:hi]. *)
Definition slice_of (v : list A) (lo hi : nat) : list A := firstn (hi - lo) (skipn lo v).

(** Attribute dictionaries. *)
Definition dict (K V : Type) := K -> option V.
Definition upd {K V} (eq : forall x y : K, {x = y} + {x <> y}) (d : dict K V) (k : K) (v : V) : dict K V :=
  fun x => if eq x k then Some v else d x.

(** np.hstack([d[k] for k in keys]): AttributeError if a key is missing, ValueError on an empty list. *)
Fixpoint gather {K V} (f : V -> option (list A)) (d : dict K V) (keys : list K) : option (list A) :=
  match keys with
  | [] => Some []
  | k :: r =>
      match d k with
      | None => None
      | Some v => match f v, gather f d r with
                  | Some x, Some y => Some (x ++ y)
                  | _, _ => None
                  end
      end
  end.
Definition hstack {K V} (f : V -> option (list A)) (d : dict K V) (keys : list K) : option (list A) :=
  match keys with [] => None | _ => gather f d keys end.

(** *** ActiveOperator, operators.py lines 17-90 *)
Record active := mkActive {
  a_slices : list slice;
  a_dims : list (list nat);
  a_attrs : dict slice arr;
  a_ndim : nat
}.

(** get_hole_combinations, lines 62-69. *)
Definition get_hole_combinations (n : nat) : list slice :=
  map (fun i => repeat Lo i ++ repeat LO (n - i)) (seq 0 (n + 1)).
(** get_particle_combinations, lines 71-78. *)
Definition get_particle_combinations (n : nat) : list slice :=
  map (fun i => repeat LV (n - i) ++ repeat Lv i) (seq 0 (n + 1)).

(** dims_alpha / dims_beta, lines 27-36. *)
Definition dims_alpha (s : sysdims) (x : olet) : nat :=
  match x with
  | Lo => noa s - act_oa s
  | LO => noa s - (noa s - act_oa s)
  | LV => noa s + act_ua s - noa s
  | Lv => norb s - (noa s + act_ua s)
  end.
Definition dims_beta (s : sysdims) (x : olet) : nat :=
  match x with
  | Lo => nob s - act_ob s
  | LO => nob s - (nob s - act_ob s)
  | LV => nob s + act_ub s - nob s
  | Lv => norb s - (nob s + act_ub s)
  end.

Definition count_o (x : olet) (l : slice) : nat := count_occ olet_eq_dec l x.
Definition count_l (x : letter) (l : name) : nat := count_occ letter_eq_dec l x.

(** The nested loops of lines 42-59: the (slice name, dimensions) pairs in order. *)
Definition active_blocks (s : sysdims) (order : nat) (spincase : name) (num_active : nat)
  : list (slice * list nat) :=
  let dbl := spincase ++ spincase in
  let nah := count_l La (firstn order (skipn order dbl)) in
  let nap := count_l La (firstn order dbl) in
  let nbp := count_l Lb (firstn order dbl) in
  let nbh := count_l Lb (firstn order (skipn order dbl)) in
  flat_map (fun pa =>
  flat_map (fun pb =>
  flat_map (fun ha =>
  flat_map (fun hb =>
    let temp := pa ++ pb ++ ha ++ hb in
    let dimensions := map (dims_alpha s) pa ++ map (dims_beta s) pb
                      ++ map (dims_alpha s) ha ++ map (dims_beta s) hb in
    if (num_active <=? count_o LO temp) && (num_active <=? count_o LV temp)
    then [(temp, dimensions)] else [])
    (get_hole_combinations nbh))
    (get_hole_combinations nah))
    (get_particle_combinations nbp))
    (get_particle_combinations nap).

(** ActiveOperator.__init__, lines 19-59. *)
Definition make_active (s : sysdims) (order : nat) (spincase : name) (num_active : nat) : active :=
  let bl := active_blocks s order spincase num_active in
  {| a_slices := map fst bl;
     a_dims := map snd bl;
     a_attrs := fold_left (fun d b => upd slice_eq_dec d (fst b) (zeros (snd b))) bl (fun _ => None);
     a_ndim := fold_left (fun n b => n + prod (snd b)) bl 0 |}.

(** ActiveOperator.flatten, lines 80-83. *)
Definition flatten_active (a : active) : option (list A) :=
  hstack (fun x => Some (data x)) (a_attrs a) (a_slices a).

(** ActiveOperator.unflatten, lines 85-90: loop over zip(dimensions, slices). *)
Fixpoint unflatten_active_loop (z : list (list nat * slice)) (flat : list A) (prev : nat)
    (d : dict slice arr) : option (dict slice arr) :=
  match z with
  | [] => Some d
  | (dims, nm) :: r =>
      match reshape (slice_of flat prev (prod dims + prev)) dims with
      | None => None
      | Some x => unflatten_active_loop r flat (prev + prod dims) (upd slice_eq_dec d nm x)
      end
  end.
Definition unflatten_active (a : active) (flat : list A) : option active :=
  match unflatten_active_loop (combine (a_dims a) (a_slices a)) flat 0 (a_attrs a) with
  | None => None
  | Some d => Some {| a_slices := a_slices a; a_dims := a_dims a; a_attrs := d; a_ndim := a_ndim a |}
  end.

(** *** Generic operator object: the members shared by ClusterOperator, FockOperator and
    SpinFlipOperator. *)
Inductive attr := Arr (x : arr) | Act (a : active).
Record op := mkOp {
  o_order : nat;
  o_spin_cases : list name;
  o_dims : list (list nat);
  o_attrs : dict name attr;
  o_ndim : nat
}.

Definition flatten_attr (x : attr) : option (list A) :=
  match x with Arr y => Some (data y) | Act a => flatten_active a end.

(** flatten: lines 153-156, 276-279, 340-343 (identical text). *)
Definition flatten (o : op) : option (list A) := hstack flatten_attr (o_attrs o) (o_spin_cases o).

(** Loop of ClusterOperator.unflatten, lines 165-180.  The loops of FockOperator (288-294) and
    SpinFlipOperator (352-358) are the same without the ActiveOperator branch, which their
    attributes never take. *)
Fixpoint unflatten_loop (z : list (list nat * name)) (order : nat) (flat : list A) (prev : nat)
    (d : dict name attr) : option (dict name attr) :=
  match z with
  | [] => Some d
  | (dims, nm) :: r =>
      if order <? length nm then unflatten_loop r order flat prev d
      else
        match d nm with
        | None => None
        | Some (Act a) =>
            match unflatten_active a (slice_of flat prev (prev + a_ndim a)) with
            | None => None
            | Some a' => unflatten_loop r order flat (prev + a_ndim a) (upd name_eq_dec d nm (Act a'))
            end
        | Some (Arr _) =>
            match reshape (slice_of flat prev (prod dims + prev)) dims with
            | None => None
            | Some x => unflatten_loop r order flat (prev + prod dims) (upd name_eq_dec d nm (Arr x))
            end
        end
  end.
(** unflatten(T_flat, order=0), lines 158-180. *)
Definition unflatten_to (o : op) (flat : list A) (order : nat) : option op :=
  let ord := if order =? 0 then o_order o else order in
  match unflatten_loop (combine (o_dims o) (o_spin_cases o)) ord flat 0 (o_attrs o) with
  | None => None
  | Some d => Some {| o_order := o_order o; o_spin_cases := o_spin_cases o; o_dims := o_dims o;
                      o_attrs := d; o_ndim := o_ndim o |}
  end.
Definition unflatten (o : op) (flat : list A) : option op := unflatten_to o flat 0.

(** get_operator_name, lines 360-361. *)
Definition get_operator_name (i j : nat) : name := repeat La (i - j) ++ repeat Lb j.
(** get_operator_dimension, lines 363-373. *)
Definition get_operator_dimension (i j : nat) (s : sysdims) : list nat :=
  (repeat (nua s) (i - j) ++ repeat (nub s) j) ++ (repeat (noa s) (i - j) ++ repeat (nob s) j).

(** One [setattr]/[append]/[ndim +=] step of a constructor: attribute name, initial value,
    dimension tuples appended, ndim increment. *)
Record entry := mkEntry { e_name : name; e_attr : attr; e_dims : list (list nat); e_ndim : nat }.

(** Effect of a sequence of such steps on an object under construction. *)
Definition assemble (order : nat) (es : list entry) : op :=
  {| o_order := order;
     o_spin_cases := map e_name es;
     o_dims := flat_map e_dims es;
     o_attrs := fold_left (fun d e => upd name_eq_dec d (e_name e) (e_attr e)) es (fun _ => None);
     o_ndim := fold_left (fun n e => n + e_ndim e) es 0 |}.

Definition in_list (i : nat) (l : list nat) : bool := existsb (Nat.eqb i) l.

(** A P-space vector of [n] amplitudes under a given name: lines 125-129 and 262-267.
    For n = 0 the attribute is reset to shape (1,) but dimension (0,) is recorded. *)
Definition pspace_entry (nm : name) (n : nat) : entry :=
  {| e_name := nm;
     e_attr := Arr (if n =? 0 then zeros [1] else zeros [n]);
     e_dims := [[n]];
     e_ndim := n |}.
(** A dense block: lines 135-137, 240-243, 270-273. *)
Definition dense_entry (nm : name) (dims : list nat) : entry :=
  {| e_name := nm; e_attr := Arr (zeros dims); e_dims := [dims]; e_ndim := prod dims |}.
(** An active-space block: lines 116-121. *)
Definition active_entry (s : sysdims) (i : nat) (nm : name) (nact : nat) : entry :=
  let a := make_active s i nm nact in
  {| e_name := nm; e_attr := Act a; e_dims := a_dims a; e_ndim := a_ndim a |}.

(** Keyword arguments of ClusterOperator; the default [[None]] is the empty list. *)
Record config := mkConfig {
  p_orders : list nat; pspace_sizes : list (list nat);
  active_orders : list nat; num_active : list nat
}.

(** Body of the j loop for one order i, lines 112-139.  excitation_count[j] out of range is
    IndexError. *)
Fixpoint cluster_spin_loop (s : sysdims) (c : config) (i : nat) (nact : nat) (exc : list nat)
    (js : list nat) : option (list entry) :=
  match js with
  | [] => Some []
  | j :: r =>
      let nm := get_operator_name i j in
      let e := if in_list i (active_orders c) then Some (active_entry s i nm nact)
               else if in_list i (p_orders c) then
                      match nth_error exc j with
                      | Some n => Some (pspace_entry nm n)
                      | None => None
                      end
               else Some (dense_entry nm (get_operator_dimension i j s)) in
      match e, cluster_spin_loop s c i nact exc r with
      | Some x, Some y => Some (x :: y)
      | _, _ => None
      end
  end.

(** The i loop, lines 102-139, with the counters act_cnt and p_cnt. *)
Fixpoint cluster_order_loop (s : sysdims) (c : config) (is : list nat) (act_cnt p_cnt : nat)
  : option (list entry) :=
  match is with
  | [] => Some []
  | i :: r =>
      match (if in_list i (active_orders c)
             then match nth_error (num_active c) act_cnt with
                  | Some n => Some (n, S act_cnt) | None => None end
             else Some (0, act_cnt)),
            (if in_list i (p_orders c)
             then match nth_error (pspace_sizes c) p_cnt with
                  | Some l => Some (l, S p_cnt) | None => None end
             else Some ([], p_cnt))
      with
      | Some (nact, act_cnt'), Some (exc, p_cnt') =>
          match cluster_spin_loop s c i nact exc (seq 0 (i + 1)),
                cluster_order_loop s c r act_cnt' p_cnt' with
          | Some x, Some y => Some (x ++ y)
          | _, _ => None
          end
      | _, _ => None
      end
  end.

(** ClusterOperator.__init__, lines 93-141. *)
Definition cluster_operator (s : sysdims) (order : nat) (c : config) : option op :=
  match cluster_order_loop s c (seq 1 order) 0 0 with
  | None => None
  | Some es => Some (assemble order es)
  end.

(** ClusterOperator.extend_pspace_t3_operator, lines 143-151.  [len(getattr(...))] is the first
    dimension; hstack of a 1-D array with zeros.  A failing lookup, a non 1-D array, a negative
    list index or a missing dimension slot is an exception (None). *)
Definition set_dim (k : nat) (v : list nat) (l : list (list nat)) : option (list (list nat)) :=
  if k <? length l then Some (firstn k l ++ v :: skipn (S k) l) else None.
Definition extend_one (o : op) (i : nat) (nm : name) (want : nat) : option op :=
  match o_attrs o nm with
  | Some (Arr {| shape := [num_old]; data := x |}) =>
      if num_old <? want then
        match set_dim (i + 5) [want] (o_dims o) with
        | None => None
        | Some dims' =>
            Some {| o_order := o_order o; o_spin_cases := o_spin_cases o; o_dims := dims';
                    o_attrs := upd name_eq_dec (o_attrs o) nm
                                 (Arr {| shape := [want]; data := x ++ repeat zero (want - num_old) |});
                    o_ndim := o_ndim o + (want - num_old) |}
        end
      else Some o
  | _ => None
  end.
Definition t3_spincases : list name :=
  [[La; La; La]; [La; La; Lb]; [La; Lb; Lb]; [Lb; Lb; Lb]].
Fixpoint extend_loop (o : op) (l : list (nat * (name * nat))) : option op :=
  match l with
  | [] => Some o
  | (i, (nm, want)) :: r =>
      match extend_one o i nm want with None => None | Some o' => extend_loop o' r end
  end.
Definition extend_pspace_t3_operator (o : op) (counts : list nat) : option op :=
  if length counts =? 4 then extend_loop o (combine (seq 0 4) (combine t3_spincases counts)) else None.

(** FockOperator.__init__, lines 193-274.  [num_add] outside {1,2} leaves add_spin empty. *)
Definition fock_add (s : sysdims) (np nh : nat) : list (name * list nat) :=
  let d := fun x => if nh <? np then (match x with La => nua s | Lb => nub s end)
                    else (match x with La => noa s | Lb => nob s end) in
  let num_add := if nh <? np then np - nh else nh - np in
  match num_add with
  | 1 => [([La], [d La])]
  | 2 => [([La; Lb], [d La; d Lb])]
  | _ => []
  end.

(** The loop over [zip(add_spin, add_dims)] inside the j loop, lines 256-273. *)
Fixpoint fock_add_loop (c : config) (s : sysdims) (i j : nat) (exc : list nat) (adds : list (name * list nat))
  : option (list entry) :=
  match adds with
  | [] => Some []
  | (sp, dim) :: r =>
      let nm := sp ++ get_operator_name i j in
      let e := if in_list i (p_orders c) then
                 match nth_error exc j with Some n => Some (pspace_entry nm n) | None => None end
               else Some (dense_entry nm (dim ++ get_operator_dimension i j s)) in
      match e, fock_add_loop c s i j exc r with
      | Some x, Some y => Some (x :: y)
      | _, _ => None
      end
  end.
Fixpoint fock_spin_loop (c : config) (s : sysdims) (i : nat) (exc : list nat) (adds : list (name * list nat))
    (js : list nat) : option (list entry) :=
  match js with
  | [] => Some []
  | j :: r => match fock_add_loop c s i j exc adds, fock_spin_loop c s i exc adds r with
              | Some x, Some y => Some (x ++ y)
              | _, _ => None
              end
  end.
Fixpoint fock_order_loop (c : config) (s : sysdims) (adds : list (name * list nat)) (is : list nat) (p_cnt : nat)
  : option (list entry) :=
  match is with
  | [] => Some []
  | i :: r =>
      match (if in_list i (p_orders c)
             then match nth_error (pspace_sizes c) p_cnt with
                  | Some l => Some (l, S p_cnt) | None => None end
             else Some ([], p_cnt)) with
      | None => None
      | Some (exc, p_cnt') =>
          match fock_spin_loop c s i exc adds (seq 0 (i + 1)), fock_order_loop c s adds r p_cnt' with
          | Some x, Some y => Some (x ++ y)
          | _, _ => None
          end
      end
  end.
Definition fock_operator (s : sysdims) (np nh : nat) (c : config) : option op :=
  if np =? nh then None (* assert, line 202 *)
  else
    let adds := fock_add s np nh in
    let num_excit := Nat.min np nh in
    let num_diff := if nh <? np then np - nh else nh - np in
    match fock_order_loop c s adds (seq 1 num_excit) 0 with
    | None => None
    | Some es => Some (assemble (num_diff + num_excit)
                         (map (fun a => dense_entry (fst a) (snd a)) adds ++ es))
    end.

(** SpinFlipOperator.__init__ for Ms = -1, lines 298-338.  [order] is the constructor argument;
    self.order = order + 1.  Other self.order values define no blocks and ndim = 0. *)
Definition spinflip_blocks (s : sysdims) (self_order : nat) : list (name * list nat) :=
  let b1 := ([Lb], [nub s; noa s]) in
  let b2 := ([La; Lb], [nua s; nub s; noa s; noa s]) in
  let b3 := ([Lb; Lb], [nub s; nub s; nob s; noa s]) in
  let b4 := ([La; La; Lb], [nua s; nua s; nub s; noa s; noa s; noa s]) in
  let b5 := ([La; Lb; Lb], [nua s; nub s; nub s; noa s; nob s; noa s]) in
  let b6 := ([Lb; Lb; Lb], [nub s; nub s; nub s; nob s; nob s; noa s]) in
  match self_order with
  | 1 => [b1]
  | 2 => [b1; b2; b3]
  | 3 => [b1; b2; b3; b4; b5; b6]
  | _ => []
  end.
Definition spinflip_operator (s : sysdims) (order : nat) : op :=
  assemble (1 + order) (map (fun b => dense_entry (fst b) (snd b)) (spinflip_blocks s (1 + order))).

End Operators.
