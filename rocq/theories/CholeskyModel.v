(** Model of ccpy/cholesky/cholesky.py: pivoted_chol (lines 5-69) and cholesky_eri_from_pyscf (lines 181-300).
    Exact real arithmetic; matrices and vectors are functions read below their dimensions.  Left out: printing (except the formatting
    expression of line 214, which decides the outcome of the call), timing, memory reports. *)
From Coq Require Import Reals Arith Bool String Ascii List.
From Verif Require Import RSum DiisModel.
Import ListNotations.
Local Open Scope nat_scope.
Open Scope R_scope.

(** np.argmax: the first position of a largest element of f(0), ..., f(len-1); an empty sequence has none (ValueError). *)
Fixpoint argmax (len : nat) (f : nat -> R) : nat :=
  match len with
  | O => O
  | S O => O
  | S k => let b := argmax k f in if Rlt_dec (f b) (f k) then k else b
  end.
Definition set_at (v : vec) (k : nat) (x : R) : vec := fun i => if Nat.eqb i k then x else v i.

Section Pivoted.
(** get_diag() = diagonal, get_row(i) = row i of the operator's matrix *)
Variables (N rank_max : nat) (get_diag : vec) (get_row : nat -> vec) (err_tol : R).
Record chol := mkChol { c_piv : nat -> nat; c_d : vec; c_R : nat -> vec; c_err : R; c_m : nat }.
(** lines 27-36 *)
Definition chol_init : chol :=
  {| c_piv := fun k => k; c_d := get_diag; c_R := fun _ _ => 0; c_err := sumn N (fun k => Rabs (get_diag k)); c_m := 0 |}.
(** lines 39-43: new pivot order *)
Definition pivot (st : chol) : nat -> nat :=
  let m := c_m st in
  let i := (m + argmax (N - m) (fun k => c_d st (c_piv st (m + k)%nat)))%nat in
  let tmp := c_piv st m in
  let p1 := fun k => if Nat.eqb k m then c_piv st i else c_piv st k in
  fun k => if Nat.eqb k i then tmp else p1 k.
(** lines 47-53: the loop over i updates row m of R and the diagonal d *)
Definition inner (piv : nat -> nat) (m : nat) (Rd : (nat -> vec) * vec) (i : nat) : (nat -> vec) * vec :=
  let (R, d) := Rd in
  let ip := if (0 <? m)%nat then sumn m (fun k => R k (piv m) * R k (piv i)) else 0 in
  let R1 := set_row R m (set_at (R m) (piv i) ((get_row (piv m) (piv i) - ip) / R m (piv m))) in
  (R1, set_at d (piv i) (d (piv i) - R1 m (piv i) ^ 2)).
(** lines 45-56 *)
Definition chol_step (st : chol) : chol :=
  let piv := pivot st in
  let m := c_m st in
  let R0 := set_row (c_R st) m (set_at (c_R st m) (piv m) (sqrt (c_d st (piv m)))) in
  let (R1, d1) := fold_left (inner piv m) (seq (m + 1) (N - (m + 1))) (R0, c_d st) in
  {| c_piv := piv; c_d := d1; c_R := R1; c_err := sumn (N - (m + 1)) (fun k => d1 (piv (m + 1 + k)%nat)); c_m := m + 1 |}.
(** Not a number: square root of a negative pivot, or a division by a zero pivot when there is a column left to divide. *)
Definition is_nan (st : chol) : bool :=
  let p := c_d st (pivot st (c_m st)) in
  if Rlt_dec p 0 then true else if Req_EM_T p 0 then (c_m st + 1 <? N)%nat else false.
Inductive chol_outcome := CholReturn (L : nat -> vec) (m : nat) (err : R) | CholNaN | CholValueError.
(** line 37: while m < rank_max and err > err_tol; the fuel is rank_max - m *)
Fixpoint chol_loop (fuel : nat) (st : chol) : chol_outcome :=
  match fuel with
  | O => CholReturn (c_R st) (c_m st) (c_err st)
  | S k =>
      if Rlt_dec err_tol (c_err st) then
        if (N <=? c_m st)%nat then CholValueError
        else if is_nan st then CholNaN
        else chol_loop k (chol_step st)
      else CholReturn (c_R st) (c_m st) (c_err st)
  end.
Definition pivoted_chol : chol_outcome := chol_loop rank_max chol_init.
End Pivoted.

(** ** cholesky_eri_from_pyscf *)
(** Python's [fmt % k] for an integer k: None is TypeError ("not all arguments converted", or too few); only %d and %% are modelled as
    conversions, any other letter after % is counted like %d. *)
Fixpoint conversions (l : list ascii) : nat :=
  match l with
  | [] => 0
  | c :: r =>
      if Ascii.eqb c "%"%char then match r with [] => 1 | c2 :: r2 => if Ascii.eqb c2 "%"%char then conversions r2 else S (conversions r2) end
      else conversions r
  end%nat.
Definition percent_int_ok (fmt : string) : bool := (conversions (list_ascii_of_string fmt) =? 1)%nat.

Section Pyscf.
(** mol.nbas shells; shell i holds sizes i basis functions ((2 l + 1) nc); int2e_sph gives eri p q r s = (pq|rs) on nao functions. *)
Variables (sizes : list nat) (eri : nat -> nat -> nat -> nat -> R) (tol : R) (cmax : nat).
(** dims, lines 225-231: running totals, starting at 0 *)
Definition dims (k : nat) : nat := list_sum (firstn k sizes).
Definition nbas : nat := List.length sizes.
Definition nao : nat := list_sum sizes.
Definition nchol_max : nat := (cmax * nao)%nat.
(** lines 232-237: the diagonals of the blocks (shell i, all | shell i, all), one after another *)
Definition diag_list : list R :=
  flat_map (fun i => map (fun k => eri (dims i + k / nao) (k mod nao) (dims i + k / nao) (k mod nao)) (seq 0 (nth i sizes 0 * nao)))%nat
           (seq 0 nbas).
Definition diag : vec := fun k => nth k diag_list 0.
(** np.searchsorted(dims, j): number of entries of dims (nbas+1 of them) smaller than j *)
Definition searchsorted (j : nat) : nat := List.length (filter (fun k => dims k <? j)%nat (seq 0 (nbas + 1))).
(** lines 242-247 and 273-278 *)
Definition shell (j : nat) : nat :=
  let s := searchsorted j in if negb (dims s =? j)%nat && negb (j =? 0)%nat then (s - 1)%nat else s.
(** line 250/280 and 252/283: row nu of the column block of shells (sj, sl), entry (cj, cl) within it *)
Definition eri_col (nu : nat) : vec :=
  let j := (nu / nao)%nat in let l := (nu mod nao)%nat in
  let sj := shell j in let sl := shell l in
  let cj := (j - dims sj)%nat in let cl := (l - dims sl)%nat in
  fun k => eri (k / nao)%nat (k mod nao)%nat (dims sj + cj)%nat (dims sl + cl)%nat.

Record mcd := mkMcd { v_vecs : nat -> vec; v_approx : vec; v_dmax : R; v_n : nat }.
(** lines 238-254.  Where delta_max is 0 the quotient is NaN; Coq's is an unspecified real, and no theorem depends on it. *)
Definition mcd_init : mcd :=
  let nu := argmax (nao * nao) diag in
  {| v_vecs := set_row (fun _ _ => 0) 0 (fun k => eri_col nu k / sqrt (diag nu)); v_approx := fun _ => 0; v_dmax := diag nu; v_n := 0 |}.
(** lines 259-287; chol_vecs[nchol + 1] must exist *)
Definition mcd_step (st : mcd) : option mcd :=
  let n := v_n st in
  let approx : vec := fun k => v_approx st k + v_vecs st n k * v_vecs st n k in
  let delta : vec := fun k => diag k - approx k in
  let nu := argmax (nao * nao) (fun k => Rabs (delta k)) in
  let dmax := Rabs (delta nu) in
  let r : vec := fun k => sumn (n + 1) (fun x => v_vecs st x nu * v_vecs st x k) in
  if (n + 1 <? nchol_max)%nat then
    Some {| v_vecs := set_row (v_vecs st) (n + 1) (fun k => (eri_col nu k - r k) / sqrt dmax); v_approx := approx; v_dmax := dmax; v_n := n + 1 |}
  else None.
Inductive mcd_outcome := McdReturn (vecs : nat -> vec) (nchol : nat) | McdIndexError | McdTypeError | McdValueError.
(** line 255: while abs(delta_max) > tol; each pass needs a free row, so nchol_max passes of fuel are never used up *)
Fixpoint mcd_loop (fuel : nat) (st : mcd) : mcd_outcome :=
  match fuel with
  | O => McdIndexError
  | S k => if Rlt_dec tol (Rabs (v_dmax st)) then match mcd_step st with Some st' => mcd_loop k st' | None => McdIndexError end
           else McdReturn (v_vecs st) (v_n st)
  end.
(** lines 223-300: what follows the messages.  argmax of an empty diagonal is a ValueError; a buffer without rows is an IndexError at line 252 *)
Definition mcd_body : mcd_outcome :=
  if (nao =? 0)%nat then McdValueError else if (nchol_max =? 0)%nat then McdIndexError else mcd_loop nchol_max mcd_init.
(** lines 207-300, with the message of line 214 *)
Definition cholesky_eri_from_pyscf : mcd_outcome :=
  if percent_int_ok "Generating Cholesky decomposition of ERI" then
    if percent_int_ok "Max number of Cholesky vectors = %d" then mcd_body else McdTypeError
  else McdTypeError.
End Pyscf.
