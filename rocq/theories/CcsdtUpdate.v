(** Generated by tools/gen_sdt.py.  The update loops for the triples amplitudes, ccpy/lib/fortran/cc_loops2.f90, and one CCSDT iteration, ccpy/cc/ccsdt.py
    (update, lines 11-51, flag_RHF = False).  Indices count from 0; exact reals. *)
From Coq Require Import Reals Arith List Bool.
From Verif Require Import RSum IntegralsModel TensorObjs LoopModel CcsdModel CcsdUpdate CcsdtModel.
Import ListNotations.
Open Scope R_scope.
Definition cell : Type := (nat * nat * nat * nat * nat * nat)%type.
Definition at6 (f : mat6) (q : cell) : R := let '(a, b, c, i, j, k) := q in f a b c i j k.
Definition eq6 (p q : cell) : bool :=
  let '(a, b, c, i, j, k) := p in let '(a', b', c', i', j', k') := q in ((a =? a') && (b =? b') && (c =? c') && (i =? i') && (j =? j') && (k =? k'))%nat.
(** an array after one element is overwritten *)
Definition wr6 (f : mat6) (q : cell) (x : R) : mat6 := fun a b c i j k => if eq6 (a, b, c, i, j, k) q then x else f a b c i j k.
Definition signed (s : bool) (x : R) : R := if s then x else - x.
(** The statements of one pass through the innermost loop: the element [own] is incremented, other elements become plus or minus it, in the order of the
    program; the array resid receives plus or minus the increment *)
Definition pass6 (own : cell) (val : R) (copies res : list (bool * cell)) (st : mat6 * mat6) : mat6 * mat6 :=
  let '(t, resid) := st in
  (fold_left (fun u '(s, q) => wr6 u q (signed s (at6 u own))) copies (wr6 t own (at6 t own + val)),
   fold_left (fun u '(s, q) => wr6 u q (signed s val)) res resid).

(** cc_loops2.f90, update_t3a_v2, lines 154-303; update_t3d_v2, lines 396-543, is the same with the beta arrays *)
Definition comb3 (X : mat6) : mat6 := fun a b c i j k =>
  X a b c i j k - X b a c i j k - X a c b i j k + X b c a i j k - X c b a i j k + X c a b i j k - X a b c j i k + X b a c j i k + X a c b j i k - X b c a j i k + X c b a j i k - X c a b j i k - X a b c i k j + X b a c i k j + X a c b i k j - X b c a i k j + X c b a i k j - X c a b i k j - X a b c k j i + X b a c k j i + X a c b k j i - X b c a k j i + X c b a k j i - X c a b k j i + X a b c j k i - X b a c j k i - X a c b j k i + X b c a j k i - X c b a j k i + X c a b j k i + X a b c k i j - X b a c k i j - X a c b k i j + X b c a k i j - X c b a k i j + X c a b k i j.
Definition copies3 (a b c i j k : nat) : list (bool * cell) :=
  [(true, (a, b, c, k, i, j)); (true, (a, b, c, j, k, i)); (false, (a, b, c, i, k, j)); (false, (a, b, c, j, i, k)); (false, (a, b, c, k, j, i)); (false, (b, a, c, i, j, k)); (false, (b, a, c, k, i, j)); (false, (b, a, c, j, k, i)); (true, (b, a, c, i, k, j)); (true, (b, a, c, j, i, k)); (true, (b, a, c, k, j, i)); (false, (a, c, b, i, j, k)); (false, (a, c, b, k, i, j)); (false, (a, c, b, j, k, i)); (true, (a, c, b, i, k, j)); (true, (a, c, b, j, i, k)); (true, (a, c, b, k, j, i)); (false, (c, b, a, i, j, k)); (false, (c, b, a, k, i, j)); (false, (c, b, a, j, k, i)); (true, (c, b, a, i, k, j)); (true, (c, b, a, j, i, k)); (true, (c, b, a, k, j, i)); (true, (b, c, a, i, j, k)); (true, (b, c, a, k, i, j)); (true, (b, c, a, j, k, i)); (false, (b, c, a, i, k, j)); (false, (b, c, a, j, i, k)); (false, (b, c, a, k, j, i)); (true, (c, a, b, i, j, k)); (true, (c, a, b, k, i, j)); (true, (c, a, b, j, k, i)); (false, (c, a, b, i, k, j)); (false, (c, a, b, j, i, k)); (false, (c, a, b, k, j, i))].
Definition resid3 (a b c i j k : nat) : list (bool * cell) :=
  [(true, (a, b, c, i, j, k)); (true, (a, b, c, k, i, j)); (true, (a, b, c, j, k, i)); (false, (a, b, c, i, k, j)); (false, (a, b, c, j, i, k)); (false, (a, b, c, k, j, i)); (true, (b, c, a, i, j, k)); (true, (b, c, a, k, i, j)); (true, (b, c, a, j, k, i)); (false, (b, c, a, i, k, j)); (false, (b, c, a, j, i, k)); (false, (b, c, a, k, j, i)); (true, (c, a, b, i, j, k)); (true, (c, a, b, k, i, j)); (true, (c, a, b, j, k, i)); (false, (c, a, b, i, k, j)); (false, (c, a, b, j, i, k)); (false, (c, a, b, k, j, i)); (false, (a, c, b, i, j, k)); (false, (a, c, b, k, i, j)); (false, (a, c, b, j, k, i)); (true, (a, c, b, i, k, j)); (true, (a, c, b, j, i, k)); (true, (a, c, b, k, j, i)); (false, (b, a, c, i, j, k)); (false, (b, a, c, k, i, j)); (false, (b, a, c, j, k, i)); (true, (b, a, c, i, k, j)); (true, (b, a, c, j, i, k)); (true, (b, a, c, k, j, i)); (false, (c, b, a, i, j, k)); (false, (c, b, a, k, i, j)); (false, (c, b, a, j, k, i)); (true, (c, b, a, i, k, j)); (true, (c, b, a, j, i, k)); (true, (c, b, a, k, j, i))].
Definition loop3 (no nu : nat) : list cell := flat_map (fun ii => flat_map (fun jj => flat_map (fun kk => flat_map (fun aa => flat_map (fun bb => map (fun cc => (ii, jj, kk, aa, bb, cc)) (seq (S bb) (nu - S bb))) (seq (S aa) (nu - S aa))) (seq 0 nu)) (seq (S jj) (no - S jj))) (seq (S ii) (no - S ii))) (seq 0 no).
Definition den3 (fo fv : mat2) (shift : R) (a b c i j k : nat) : R := fo i i + fo j j + fo k k - fv a a - fv b b - fv c c - shift.
Definition upd_t3_body (X : mat6) (fo fv : mat2) (shift : R) (st : mat6 * mat6) (q : cell) : mat6 * mat6 :=
  let '(ii, jj, kk, aa, bb, cc) := q in let a := cc in let b := bb in let c := aa in let i := kk in let j := jj in let k := ii in
  pass6 (a, b, c, i, j, k) (comb3 X a b c i j k / den3 fo fv shift a b c i j k) (copies3 a b c i j k) (resid3 a b c i j k) st.
Definition upd_t3 (no nu : nat) (t X : mat6) (fo fv : mat2) (shift : R) : mat6 * mat6 :=
  fold_left (upd_t3_body X fo fv shift) (loop3 no nu) (t, fun _ _ _ _ _ _ => 0).

(** cc_loops2.f90, update_t3b_v2, lines 306-349 *)
Definition comb3b (X : mat6) : mat6 := fun a b c i j k =>
  X a b c i j k - X b a c i j k - X a b c j i k + X b a c j i k.
Definition copies3b (a b c i j k : nat) : list (bool * cell) :=
  [(false, (b, a, c, i, j, k)); (false, (a, b, c, j, i, k)); (true, (b, a, c, j, i, k))].
Definition resid3b (a b c i j k : nat) : list (bool * cell) :=
  [(true, (a, b, c, i, j, k)); (false, (b, a, c, i, j, k)); (false, (a, b, c, j, i, k)); (true, (b, a, c, j, i, k))].
Definition loop3b (na nb ma mb : nat) : list cell := flat_map (fun ii => flat_map (fun jj => flat_map (fun kk => flat_map (fun aa => flat_map (fun bb => map (fun cc => (ii, jj, kk, aa, bb, cc)) (seq 0 mb)) (seq (S aa) (ma - S aa))) (seq 0 ma)) (seq 0 nb)) (seq (S ii) (na - S ii))) (seq 0 na).
Definition den3b (foa fva fob fvb : mat2) (shift : R) (a b c i j k : nat) : R := foa i i + foa j j + fob k k - fva a a - fva b b - fvb c c - shift.
Definition upd_t3b_body (X : mat6) (foa fva fob fvb : mat2) (shift : R) (st : mat6 * mat6) (q : cell) : mat6 * mat6 :=
  let '(ii, jj, kk, aa, bb, cc) := q in let a := bb in let b := aa in let c := cc in let i := jj in let j := ii in let k := kk in
  pass6 (a, b, c, i, j, k) (comb3b X a b c i j k / den3b foa fva fob fvb shift a b c i j k) (copies3b a b c i j k) (resid3b a b c i j k) st.
Definition upd_t3b (na nb ma mb : nat) (t X : mat6) (foa fva fob fvb : mat2) (shift : R) : mat6 * mat6 :=
  fold_left (upd_t3b_body X foa fva fob fvb shift) (loop3b na nb ma mb) (t, fun _ _ _ _ _ _ => 0).

(** cc_loops2.f90, update_t3c_v2, lines 351-394 *)
Definition comb3c (X : mat6) : mat6 := fun a b c i j k =>
  X a b c i j k - X a c b i j k - X a b c i k j + X a c b i k j.
Definition copies3c (a b c i j k : nat) : list (bool * cell) :=
  [(false, (a, c, b, i, j, k)); (false, (a, b, c, i, k, j)); (true, (a, c, b, i, k, j))].
Definition resid3c (a b c i j k : nat) : list (bool * cell) :=
  [(true, (a, b, c, i, j, k)); (false, (a, c, b, i, j, k)); (false, (a, b, c, i, k, j)); (true, (a, c, b, i, k, j))].
Definition loop3c (na nb ma mb : nat) : list cell := flat_map (fun ii => flat_map (fun jj => flat_map (fun kk => flat_map (fun aa => flat_map (fun bb => map (fun cc => (ii, jj, kk, aa, bb, cc)) (seq (S bb) (mb - S bb))) (seq 0 mb)) (seq 0 ma)) (seq (S jj) (nb - S jj))) (seq 0 nb)) (seq 0 na).
Definition den3c (foa fva fob fvb : mat2) (shift : R) (a b c i j k : nat) : R := foa i i + fob j j + fob k k - fva a a - fvb b b - fvb c c - shift.
Definition upd_t3c_body (X : mat6) (foa fva fob fvb : mat2) (shift : R) (st : mat6 * mat6) (q : cell) : mat6 * mat6 :=
  let '(ii, jj, kk, aa, bb, cc) := q in let a := aa in let b := cc in let c := bb in let i := ii in let j := kk in let k := jj in
  pass6 (a, b, c, i, j, k) (comb3c X a b c i j k / den3c foa fva fob fvb shift a b c i j k) (copies3c a b c i j k) (resid3c a b c i j k) st.
Definition upd_t3c (na nb ma mb : nat) (t X : mat6) (foa fva fob fvb : mat2) (shift : R) : mat6 * mat6 :=
  fold_left (upd_t3c_body X foa fva fob fvb shift) (loop3c na nb ma mb) (t, fun _ _ _ _ _ _ => 0).

Definition set_aaa (T : amps) (f : mat6) : amps := mkAmps (x_a T) (x_b T) (x_aa T) (x_ab T) (x_bb T) f (x_aab T) (x_abb T) (x_bbb T).
Definition set_aab (T : amps) (f : mat6) : amps := mkAmps (x_a T) (x_b T) (x_aa T) (x_ab T) (x_bb T) (x_aaa T) f (x_abb T) (x_bbb T).
Definition set_abb (T : amps) (f : mat6) : amps := mkAmps (x_a T) (x_b T) (x_aa T) (x_ab T) (x_bb T) (x_aaa T) (x_aab T) f (x_bbb T).
Definition set_bbb (T : amps) (f : mat6) : amps := mkAmps (x_a T) (x_b T) (x_aa T) (x_ab T) (x_bb T) (x_aaa T) (x_aab T) (x_abb T) f.
(** The calls of the loops in ccsdt.py.  T: the amplitudes at the start of the iteration (read by the intermediates), U: the object being updated *)
(** ccsdt.py, update_t1a, line 71 *)
Definition ccsdt_step_a (d : dims) (shift : R) (H : ints) (T U : amps) : amps :=
  set_a U (fst (upd_t1 (noa d) (nua d) (x_a U) (ccsdt_res_a d H T U) (i_a_oo H) (i_a_vv H) shift)).
(** ccsdt.py, update_t1b, line 98 *)
Definition ccsdt_step_b (d : dims) (shift : R) (H : ints) (T U : amps) : amps :=
  set_b U (fst (upd_t1 (nob d) (nub d) (x_b U) (ccsdt_res_b d H T U) (i_b_oo H) (i_b_vv H) shift)).
(** ccsdt.py, update_t2a, line 137 *)
Definition ccsdt_step_aa (d : dims) (shift : R) (H : ints) (T U : amps) : amps :=
  set_aa U (fst (upd_t2 (noa d) (nua d) (x_aa U) (ccsdt_res_aa d H T U) (i_a_oo H) (i_a_vv H) shift)).
(** ccsdt.py, update_t2b, line 189 *)
Definition ccsdt_step_ab (d : dims) (shift : R) (H : ints) (T U : amps) : amps :=
  set_ab U (fst (upd_t2b (noa d) (nob d) (nua d) (nub d) (x_ab U) (ccsdt_res_ab d H T U) (i_a_oo H) (i_a_vv H) (i_b_oo H) (i_b_vv H) shift)).
(** ccsdt.py, update_t2c, line 225 *)
Definition ccsdt_step_bb (d : dims) (shift : R) (H : ints) (T U : amps) : amps :=
  set_bb U (fst (upd_t2 (nob d) (nub d) (x_bb U) (ccsdt_res_bb d H T U) (i_b_oo H) (i_b_vv H) shift)).
(** ccsdt.py, update_t3a, line 253 *)
Definition ccsdt_step_aaa (d : dims) (shift : R) (H : ints) (T U : amps) : amps :=
  set_aaa U (fst (upd_t3 (noa d) (nua d) (x_aaa U) (ccsdt_res_aaa d H T U) (i_a_oo H) (i_a_vv H) shift)).
(** ccsdt.py, update_t3b, line 316 *)
Definition ccsdt_step_aab (d : dims) (shift : R) (H : ints) (T U : amps) : amps :=
  set_aab U (fst (upd_t3b (noa d) (nob d) (nua d) (nub d) (x_aab U) (ccsdt_res_aab d H T U) (i_a_oo H) (i_a_vv H) (i_b_oo H) (i_b_vv H) shift)).
(** ccsdt.py, update_t3c, line 381 *)
Definition ccsdt_step_abb (d : dims) (shift : R) (H : ints) (T U : amps) : amps :=
  set_abb U (fst (upd_t3c (noa d) (nob d) (nua d) (nub d) (x_abb U) (ccsdt_res_abb d H T U) (i_a_oo H) (i_a_vv H) (i_b_oo H) (i_b_vv H) shift)).
(** ccsdt.py, update_t3d, line 416 *)
Definition ccsdt_step_bbb (d : dims) (shift : R) (H : ints) (T U : amps) : amps :=
  set_bbb U (fst (upd_t3 (nob d) (nub d) (x_bbb U) (ccsdt_res_bbb d H T U) (i_b_oo H) (i_b_vv H) shift)).
(** ccsdt.py, update, lines 11-51.  The object T is updated block after block; later blocks read the updated ones. *)
Definition ccsdt_iter (d : dims) (shift : R) (H : ints) (T : amps) : amps :=
  let U1 := ccsdt_step_a d shift H T T in
  let U2 := ccsdt_step_b d shift H T U1 in
  let U3 := ccsdt_step_aa d shift H T U2 in
  let U4 := ccsdt_step_ab d shift H T U3 in
  let U5 := ccsdt_step_bb d shift H T U4 in
  let U6 := ccsdt_step_aaa d shift H T U5 in
  let U7 := ccsdt_step_aab d shift H T U6 in
  let U8 := ccsdt_step_abb d shift H T U7 in
  ccsdt_step_bbb d shift H T U8.

(** The residual of the amplitude equations: what the update divides by the energy denominators *)
Definition ccsdt_resid (d : dims) (H : ints) (T : amps) : amps :=
  mkAmps (ccsdt_res_a d H T T) (ccsdt_res_b d H T T) (four_term (ccsdt_res_aa d H T T)) (ccsdt_res_ab d H T T) (four_term (ccsdt_res_bb d H T T))
         (comb3 (ccsdt_res_aaa d H T T)) (comb3b (ccsdt_res_aab d H T T)) (comb3c (ccsdt_res_abb d H T T)) (comb3 (ccsdt_res_bbb d H T T)).
