(** Model of the index arrays and scatter routines of the initial guesses: ccpy/eom_guess/cisd.py 65-122 and 977-1055,
    eacisd.py 65-100 and 392-443, ipcisd.py 64-99 and 449-500, deacis.py 64-77 and 152-182, dipcis.py 64-77 and 141-170; and of the
    selection of the roots in run_diagonalization (cisd.py 33-57 and the same lines of the other files).

    An array is a function of its index list, zero at first.  The input vector is a function of the position; the routines return
    the number of entries they read besides the arrays. *)
From Coq Require Import List Arith ZArith Reals Bool.
Import ListNotations.

Record gsys := mkGsys { g_noa : nat; g_nob : nat; g_nua : nat; g_nub : nat; g_mult : nat }.
Definition range (a b : nat) : list nat := seq a (b - a).
Definition arr (A : Type) := list nat -> A.
Definition put {A : Type} (X : arr A) (i : list nat) (v : A) : arr A := fun j => if list_eq_dec Nat.eq_dec i j then v else X j.
(** the four signed stores of an antisymmetric pair of pairs *)
Definition put4 {A : Type} (opp : A -> A) (X : arr A) (a b i j : nat) (v : A) : arr A :=
  put (put (put (put X [a; b; i; j] v) [b; a; i; j] (opp v)) [a; b; j; i] (opp v)) [b; a; j; i] v.

(** active-space sizes, cisd.py 73-76 and 985-988; system.multiplicity >= 1 *)
Definition nacto_a (s : gsys) (nacto : nat) : nat := Nat.min (nacto + (g_mult s - 1)) (g_noa s).
Definition nacto_b (s : gsys) (nacto : nat) : nat := Nat.min nacto (g_nob s).
Definition nactu_a (s : gsys) (nactu : nat) : nat := Nat.min nactu (g_nua s).
Definition nactu_b (s : gsys) (nactu : nat) : nat := Nat.min (nactu + (g_mult s - 1)) (g_nub s).

(** for loops: the state is threaded through the body *)
Definition for_ {S : Type} (l : list nat) (body : nat -> S -> S) (st : S) : S := fold_left (fun st x => body x st) l st.

(** scatter, 85-93: singles *)
Definition scatter_1 (nu no : nat) (V : nat -> R) (st : arr R * nat) : arr R * nat :=
  for_ (range 0 nu) (fun a => for_ (range 0 no) (fun i (st : arr R * nat) =>
    let (X, off) := st in (put X [a; i] (V off), S off))) st.
(** 94-103 and 111-120: same-spin doubles *)
Definition scatter_2s (nu no nactu nacto : nat) (V : nat -> R) (st : arr R * nat) : arr R * nat :=
  for_ (range 0 nu) (fun a => for_ (range (a + 1) nu) (fun b => for_ (range 0 no) (fun i => for_ (range (i + 1) no) (fun j (st : arr R * nat) =>
    let (X, off) := st in
    if (a <? nactu) && (b <? nactu) && (no - nacto <=? i) && (no - nacto <=? j) then (put4 Ropp X a b i j (V off), S off) else (X, off))))) st.
(** 104-110: opposite-spin doubles *)
Definition scatter_2ab (nua nub noa nob nactua nactub nactoa nactob : nat) (V : nat -> R) (st : arr R * nat) : arr R * nat :=
  for_ (range 0 nua) (fun a => for_ (range 0 nub) (fun b => for_ (range 0 noa) (fun i => for_ (range 0 nob) (fun j (st : arr R * nat) =>
    let (X, off) := st in
    if (a <? nactua) && (b <? nactub) && (noa - nactoa <=? i) && (nob - nactob <=? j) then (put X [a; b; i; j] (V off), S off) else (X, off))))) st.

Record amps := mkAmps { v_a : arr R; v_b : arr R; v_aa : arr R; v_ab : arr R; v_bb : arr R }.
Definition zeros {A : Type} (z : A) : arr A := fun _ => z.
(** scatter, 65-122 (before the final flattening); the number is the final value of offset *)
Definition scatter (s : gsys) (nacto nactu : nat) (V : nat -> R) : amps * nat :=
  let '(xa, o1) := scatter_1 (g_nua s) (g_noa s) V (zeros 0%R, 0) in
  let '(xb, o2) := scatter_1 (g_nub s) (g_nob s) V (zeros 0%R, o1) in
  let '(xaa, o3) := scatter_2s (g_nua s) (g_noa s) (nactu_a s nactu) (nacto_a s nacto) V (zeros 0%R, o2) in
  let '(xab, o4) := scatter_2ab (g_nua s) (g_nub s) (g_noa s) (g_nob s) (nactu_a s nactu) (nactu_b s nactu) (nacto_a s nacto) (nacto_b s nacto) V (zeros 0%R, o3) in
  let '(xbb, o5) := scatter_2s (g_nub s) (g_nob s) (nactu_b s nactu) (nacto_b s nacto) V (zeros 0%R, o4) in
  (mkAmps xa xb xaa xab xbb, o5).

(** get_index_arrays, 977-1055: sym1 and sym2 are the symmetry tests on orbital numbers *)
Definition index_1 (nu no : nat) (sym1 : nat -> nat -> bool) : arr Z :=
  fst (for_ (range 0 nu) (fun a => for_ (range 0 no) (fun i (st : arr Z * Z) =>
    let (X, ct) := st in ((if sym1 (a + no) i then put X [a; i] ct else X), (ct + 1)%Z))) (zeros 0%Z, 1%Z)).
Definition index_2s (no nactu nacto : nat) (sym2 : nat -> nat -> nat -> nat -> bool) : arr Z :=
  fst (for_ (range 0 nactu) (fun a => for_ (range (a + 1) nactu) (fun b => for_ (range (no - nacto) no) (fun i => for_ (range (i + 1) no) (fun j (st : arr Z * Z) =>
    let (X, ct) := st in ((if sym2 (a + no) (b + no) i j then put4 Z.opp X a b i j ct else X), (ct + 1)%Z))))) (zeros 0%Z, 1%Z)).
Definition index_2ab (noa nob nactua nactub nactoa nactob : nat) (sym2 : nat -> nat -> nat -> nat -> bool) : arr Z :=
  fst (for_ (range 0 nactua) (fun a => for_ (range 0 nactub) (fun b => for_ (range (noa - nactoa) noa) (fun i => for_ (range (nob - nactob) nob) (fun j (st : arr Z * Z) =>
    let (X, ct) := st in ((if sym2 (a + noa) (b + nob) i j then put X [a; b; i; j] ct else X), (ct + 1)%Z))))) (zeros 0%Z, 1%Z)).
Record idxs := mkIdxs { i_a : arr Z; i_b : arr Z; i_aa : arr Z; i_ab : arr Z; i_bb : arr Z }.
Definition get_index_arrays (s : gsys) (nacto nactu : nat) (sym1 : nat -> nat -> bool) (sym2 : nat -> nat -> nat -> nat -> bool) : idxs :=
  mkIdxs (index_1 (g_nua s) (g_noa s) sym1) (index_1 (g_nub s) (g_nob s) sym1)
    (index_2s (g_noa s) (nactu_a s nactu) (nacto_a s nacto) sym2)
    (index_2ab (g_noa s) (g_nob s) (nactu_a s nactu) (nactu_b s nactu) (nacto_a s nacto) (nacto_b s nacto) sym2)
    (index_2s (g_nob s) (nactu_b s nactu) (nacto_b s nacto) sym2).

(** deacis.py 64-77, dipcis.py 62-75: the output is indexed by the pair; [None] when V_in is too short (n entries) *)
Definition pair_loop (l1 l2 : list nat) (cond : nat -> nat -> bool) (V : nat -> R) (n : nat) : option (arr R * nat) :=
  for_ l1 (fun a => for_ l2 (fun b st => match st with
    | None => None
    | Some (X, ct2) => if cond a b then if ct2 <? n then Some (put X [a; b] (V ct2), S ct2) else None else Some (X, ct2)
    end)) (Some (zeros 0%R, 0)).
Definition scatter_2p (s : gsys) (nactu : nat) (V : nat -> R) (n : nat) : option (arr R * nat) :=
  pair_loop (range 0 (g_nua s)) (range 0 (g_nub s)) (fun a b => (a <? nactu) && (b <? nactu)) V n.
Definition scatter_2h (s : gsys) (nacto : nat) (V : nat -> R) (n : nat) : option (arr R * nat) :=
  pair_loop (range 0 (g_noa s)) (range 0 (g_nob s)) (fun i j => (g_noa s - nacto <=? i) && (g_nob s - nacto <=? j)) V n.
(** the index arrays of the same files *)
Definition index_2p (s : gsys) (nactu : nat) (sym : nat -> nat -> bool) : arr Z :=
  fst (for_ (range 0 (nactu_a s nactu)) (fun a => for_ (range 0 (nactu_b s nactu)) (fun b (st : arr Z * Z) =>
    let (X, ct) := st in ((if sym (a + g_noa s) (b + g_nob s) then put X [a; b] ct else X), (ct + 1)%Z))) (zeros 0%Z, 1%Z)).
Definition index_2h (s : gsys) (nacto : nat) (sym : nat -> nat -> bool) : arr Z :=
  fst (for_ (range (g_noa s - nacto_a s nacto) (g_noa s)) (fun i => for_ (range (g_nob s - nacto_b s nacto) (g_nob s)) (fun j (st : arr Z * Z) =>
    let (X, ct) := st in ((if sym i j then put X [i; j] ct else X), (ct + 1)%Z))) (zeros 0%Z, 1%Z)).

(** eacisd.py 85-89 / ipcisd.py 84-88: the one-body block *)
Definition scatter_0 (n : nat) (V : nat -> R) (st : arr R * nat) : arr R * nat :=
  for_ (range 0 n) (fun a (st : arr R * nat) => let (X, off) := st in (put X [a] (V off), S off)) st.
(** eacisd.py 90-96 *)
Definition scatter_ea_s (nu no nactu nacto : nat) (V : nat -> R) (st : arr R * nat) : arr R * nat :=
  for_ (range 0 nu) (fun a => for_ (range (a + 1) nu) (fun b => for_ (range 0 no) (fun j (st : arr R * nat) =>
    let (X, off) := st in
    if (a <? nactu) && (b <? nactu) && (no - nacto <=? j) then (put (put X [a; b; j] (V off)) [b; a; j] (- V off)%R, S off) else (X, off)))) st.
(** 97-102 *)
Definition scatter_ea_o (nua nub nob nactua nactub nactob : nat) (V : nat -> R) (st : arr R * nat) : arr R * nat :=
  for_ (range 0 nua) (fun a => for_ (range 0 nub) (fun b => for_ (range 0 nob) (fun j (st : arr R * nat) =>
    let (X, off) := st in
    if (a <? nactua) && (b <? nactub) && (nob - nactob <=? j) then (put X [a; b; j] (V off), S off) else (X, off)))) st.
Record amps1 := mkAmps1 { w_a : arr R; w_aa : arr R; w_ab : arr R }.
(** eacisd.py scatter, 65-103 *)
Definition scatter_ea (s : gsys) (nacto nactu : nat) (V : nat -> R) : amps1 * nat :=
  let '(xa, o1) := scatter_0 (g_nua s) V (zeros 0%R, 0) in
  let '(xaa, o2) := scatter_ea_s (g_nua s) (g_noa s) (nactu_a s nactu) (nacto_a s nacto) V (zeros 0%R, o1) in
  let '(xab, o3) := scatter_ea_o (g_nua s) (g_nub s) (g_nob s) (nactu_a s nactu) (nactu_b s nactu) (nacto_b s nacto) V (zeros 0%R, o2) in
  (mkAmps1 xa xaa xab, o3).
(** ipcisd.py 89-95 *)
Definition scatter_ip_s (no nu nacto nactu : nat) (V : nat -> R) (st : arr R * nat) : arr R * nat :=
  for_ (range 0 no) (fun i => for_ (range 0 nu) (fun b => for_ (range (i + 1) no) (fun j (st : arr R * nat) =>
    let (X, off) := st in
    if (no - nacto <=? i) && (b <? nactu) && (no - nacto <=? j) then (put (put X [i; b; j] (V off)) [j; b; i] (- V off)%R, S off) else (X, off)))) st.
(** 96-101 *)
Definition scatter_ip_o (noa nub nob nactoa nactub nactob : nat) (V : nat -> R) (st : arr R * nat) : arr R * nat :=
  for_ (range 0 noa) (fun i => for_ (range 0 nub) (fun b => for_ (range 0 nob) (fun j (st : arr R * nat) =>
    let (X, off) := st in
    if (noa - nactoa <=? i) && (b <? nactub) && (nob - nactob <=? j) then (put X [i; b; j] (V off), S off) else (X, off)))) st.
Definition scatter_ip (s : gsys) (nacto nactu : nat) (V : nat -> R) : amps1 * nat :=
  let '(xa, o1) := scatter_0 (g_noa s) V (zeros 0%R, 0) in
  let '(xaa, o2) := scatter_ip_s (g_noa s) (g_nua s) (nacto_a s nacto) (nactu_a s nactu) V (zeros 0%R, o1) in
  let '(xab, o3) := scatter_ip_o (g_noa s) (g_nub s) (g_nob s) (nacto_a s nacto) (nactu_b s nactu) (nacto_b s nacto) V (zeros 0%R, o2) in
  (mkAmps1 xa xaa xab, o3).

(** eacisd.py 416-443 *)
Definition index_0 (n : nat) (ok : nat -> bool) : arr Z :=
  fst (for_ (range 0 n) (fun a (st : arr Z * Z) => let (X, ct) := st in ((if ok a then put X [a] ct else X), (ct + 1)%Z)) (zeros 0%Z, 1%Z)).
Definition index_ea_s (no nactu nacto : nat) (sym2 : nat -> nat -> nat -> bool) : arr Z :=
  fst (for_ (range 0 nactu) (fun a => for_ (range (a + 1) nactu) (fun b => for_ (range (no - nacto) no) (fun j (st : arr Z * Z) =>
    let (X, ct) := st in ((if sym2 (a + no) (b + no) j then put (put X [a; b; j] ct) [b; a; j] (- ct)%Z else X), (ct + 1)%Z)))) (zeros 0%Z, 1%Z)).
Definition index_ea_o (noa nob nactua nactub nactob : nat) (sym2 : nat -> nat -> nat -> bool) : arr Z :=
  fst (for_ (range 0 nactua) (fun a => for_ (range 0 nactub) (fun b => for_ (range (nob - nactob) nob) (fun j (st : arr Z * Z) =>
    let (X, ct) := st in ((if sym2 (a + noa) (b + nob) j then put X [a; b; j] ct else X), (ct + 1)%Z)))) (zeros 0%Z, 1%Z)).
Record idxs1 := mkIdxs1 { j_a : arr Z; j_aa : arr Z; j_ab : arr Z }.
Definition get_index_ea (s : gsys) (nacto nactu : nat) (sym1 : nat -> bool) (sym2 : nat -> nat -> nat -> bool) : idxs1 :=
  mkIdxs1 (index_0 (g_nua s) (fun a => sym1 (a + g_noa s)))
    (index_ea_s (g_noa s) (nactu_a s nactu) (nacto_a s nacto) sym2)
    (index_ea_o (g_noa s) (g_nob s) (nactu_a s nactu) (nactu_b s nactu) (nacto_b s nacto) sym2).
(** ipcisd.py 473-500 *)
Definition index_ip_s (no nactu nacto : nat) (sym2 : nat -> nat -> nat -> bool) : arr Z :=
  fst (for_ (range (no - nacto) no) (fun i => for_ (range 0 nactu) (fun b => for_ (range (i + 1) no) (fun j (st : arr Z * Z) =>
    let (X, ct) := st in ((if sym2 i (b + no) j then put (put X [i; b; j] ct) [j; b; i] (- ct)%Z else X), (ct + 1)%Z)))) (zeros 0%Z, 1%Z)).
Definition index_ip_o (noa nob nactoa nactub nactob : nat) (sym2 : nat -> nat -> nat -> bool) : arr Z :=
  fst (for_ (range (noa - nactoa) noa) (fun i => for_ (range 0 nactub) (fun b => for_ (range (nob - nactob) nob) (fun j (st : arr Z * Z) =>
    let (X, ct) := st in ((if sym2 i (b + nob) j then put X [i; b; j] ct else X), (ct + 1)%Z)))) (zeros 0%Z, 1%Z)).
Definition get_index_ip (s : gsys) (nacto nactu : nat) (sym1 : nat -> bool) (sym2 : nat -> nat -> nat -> bool) : idxs1 :=
  mkIdxs1 (index_0 (g_noa s) sym1)
    (index_ip_s (g_noa s) (nactu_a s nactu) (nacto_a s nacto) sym2)
    (index_ip_o (g_noa s) (g_nob s) (nacto_a s nacto) (nactu_b s nactu) (nacto_b s nacto) sym2).

(** run_diagonalization, cisd.py 45-54: the loop over the sorted eigenvalues [om] of one irrep with its eigenvectors; [zero] is the test
    omega[i] == 0.0; the result is the list of the (eigenvalue, vector) pairs appended.  [ncol] is V_act.shape[1] (= len(omega)). *)
Fixpoint select_loop {E : Type} (zero : E -> bool) (om : list E) (i : nat) (nroot kout : nat) : list (E * nat) :=
  match om with
  | [] => []
  | e :: om' => if zero e then select_loop zero om' (S i) nroot kout
                else (e, i) :: (if S kout =? nroot then [] else select_loop zero om' (S i) nroot (S kout))
  end.
Definition select_roots {E : Type} (zero : E -> bool) (om : list E) (nroot : nat) : list (E * nat) :=
  if nroot =? 0 then [] else select_loop zero om 0 (Nat.min nroot (length om)) 0.
(** 33-36: all irreps in turn; use_symmetry off replaces the irrep by None *)
Fixpoint run_irreps {E I : Type} (zero : E -> bool) (eig : option I -> list E) (use_symmetry : bool) (rpi : list (I * nat)) : list (E * nat * option I) :=
  match rpi with
  | [] => []
  | (ir, nroot) :: t =>
      let key := if use_symmetry then Some ir else None in
      map (fun p => (p, key)) (select_roots zero (eig key) nroot) ++ run_irreps zero eig use_symmetry t
  end.

(** dimensions of the matrices, cisd.py 135-141 (int(x*(x-1)/2*y*(y-1)/2); the intermediate floating-point values are exact halves),
    eacisd.py 111-114, ipcisd.py 166-169, deacis.py 90, dipcis.py 90 *)
Definition ndim_cisd (s : gsys) (nacto nactu : nat) : nat :=
  let oa := nacto_a s nacto in let ob := nacto_b s nacto in let ua := nactu_a s nactu in let ub := nactu_b s nactu in
  g_noa s * g_nua s + g_nob s * g_nub s + (oa * (oa - 1) * ua * (ua - 1)) / 4 + oa * ob * ua * ub + (ob * (ob - 1) * ub * (ub - 1)) / 4.
Definition ndim_ea (s : gsys) (nacto nactu : nat) : nat :=
  let oa := nacto_a s nacto in let ob := nacto_b s nacto in let ua := nactu_a s nactu in let ub := nactu_b s nactu in
  g_nua s + (oa * ua * (ua - 1)) / 2 + ob * ua * ub.
Definition ndim_ip (s : gsys) (nacto nactu : nat) : nat :=
  let oa := nacto_a s nacto in let ob := nacto_b s nacto in let ua := nactu_a s nactu in let ub := nactu_b s nactu in
  g_noa s + (ua * oa * (oa - 1)) / 2 + ob * oa * ub.
Definition ndim_2p (s : gsys) (nactu : nat) : nat := nactu_a s nactu * nactu_b s nactu.
Definition ndim_2h (s : gsys) (nacto : nat) : nat := nacto_a s nacto * nacto_b s nacto.
