(** Model of ccpy/utilities/symmetry.py. *)
From Coq Require Import List Arith NArith Bool String.
Import ListNotations.

(** *** Point-group tables *)

(** get_pg_irreps, lines 1-17: dictionary literals in order; the number is the position (checked
    against the literals below, where the numbers are written out).  KeyError = None.  The
    [pg.upper()] of line 5 is not modelled: keys are the upper-case names. *)
Definition get_pg_irreps (pg : string) : option (list (string * N)) :=
  (if String.eqb pg "C1" then Some [("A", 0)]
  else if String.eqb pg "C2" then Some [("A", 0); ("B", 1)]
  else if String.eqb pg "CI" then Some [("AG", 0); ("AU", 1)]
  else if String.eqb pg "CS" then Some [("A'", 0); ("A""", 1)]
  else if String.eqb pg "C2V" then Some [("A1", 0); ("A2", 1); ("B1", 2); ("B2", 3)]
  else if String.eqb pg "C2H" then Some [("AG", 0); ("BG", 1); ("BU", 2); ("AU", 3)]
  else if String.eqb pg "D2" then Some [("A", 0); ("B1", 1); ("B2", 2); ("B3", 3)]
  else if String.eqb pg "D2H" then
    Some [("AG", 0); ("B1G", 1); ("B2G", 2); ("B3G", 3); ("AU", 4); ("B1U", 5); ("B2U", 6); ("B3U", 7)]
  else None)%string%N.

(** sym_table, lines 20-52. *)
Definition sym_table (pg : string) : option (list (list N)) :=
  (if String.eqb pg "C1" then Some [[0]]
  else if String.eqb pg "C2" then Some [[0; 1]; [1; 0]]
  else if String.eqb pg "CS" then Some [[0; 1]; [1; 0]]
  else if String.eqb pg "CI" then Some [[0; 1]; [1; 0]]
  else if String.eqb pg "C2V" then Some [[0; 1; 2; 3]; [1; 0; 3; 2]; [2; 3; 0; 1]; [3; 2; 1; 0]]
  else if String.eqb pg "C2H" then Some [[0; 1; 2; 3]; [1; 0; 3; 2]; [2; 3; 0; 1]; [3; 2; 1; 0]]
  else if String.eqb pg "D2" then Some [[0; 1; 2; 3]; [1; 0; 3; 2]; [2; 3; 0; 1]; [3; 2; 1; 0]]
  else if String.eqb pg "D2H" then
    Some [[0; 1; 2; 3; 4; 5; 6; 7]; [1; 0; 3; 2; 5; 4; 7; 6]; [2; 3; 0; 1; 6; 7; 4; 5]; [3; 2; 1; 0; 7; 6; 5; 4];
          [4; 5; 6; 7; 0; 1; 2; 3]; [5; 4; 7; 6; 1; 0; 3; 2]; [6; 7; 4; 5; 2; 3; 0; 1]; [7; 6; 5; 4; 3; 2; 1; 0]]
  else None)%string%N.

(** *** Counting routines *)

(** What the counting routines read from the System object.  [osym] is orbital_symmetries mapped through
    point_group_irrep_to_number, [nirrep] the number of irreps, [refsym] the number of the reference irrep. *)
Record symsys := mkSymsys {
  noa : nat; nob : nat; norb : nat; osym : list N; nirrep : nat; refsym : N }.

(** [for x in range(lo, hi): body], with exceptions. *)
Definition range (lo hi : nat) : list nat := seq lo (hi - lo).
Fixpoint loop {S} (xs : list nat) (body : nat -> S -> option S) (st : S) : option S :=
  match xs with
  | [] => Some st
  | x :: r => match body x st with None => None | Some st' => loop r body st' end
  end.
(** [n = point_group_irrep_to_number[orbital_symmetries[x]]]; IndexError = None. *)
Definition with_sym {S} (s : symsys) (x : nat) (k : N -> option S) : option S :=
  match nth_error (osym s) x with None => None | Some n => k n end.
(** [countsym[sym] += 1]; IndexError = None. *)
Fixpoint bump_nat (i : nat) (l : list nat) : option (list nat) :=
  match l, i with
  | [], _ => None
  | c :: r, O => Some (S c :: r)
  | c :: r, S j => match bump_nat j r with None => None | Some r' => Some (c :: r') end
  end.
Definition bump (sym : N) (l : list nat) : option (list nat) := bump_nat (N.to_nat sym) l.

Definition result := option (list nat * nat).
(** [total = sum(countsym); return countsym, total]. *)
Definition finish (r : option (list nat)) : result :=
  match r with None => None | Some c => Some (c, list_sum c) end.
Definition zero_counts (s : symsys) : list nat := repeat 0 (nirrep s).
(** Sequential composition of two loop nests. *)
Definition andthen {S} (f g : S -> option S) (st : S) : option S :=
  match f st with None => None | Some st' => g st' end.

Infix "^^" := N.lxor (at level 40, left associativity).

(** count_singles, lines 54-82: the two loop nests differ only in the occupied count. *)
Definition singles_nest (s : symsys) (nocc : nat) (c : list nat) : option (list nat) :=
  loop (range 0 nocc) (fun i c => with_sym s i (fun ni =>
    loop (range nocc (norb s)) (fun a c => with_sym s a (fun na =>
      bump ((na ^^ ni) ^^ refsym s) c)) c)) c.
Definition count_singles (s : symsys) : result :=
  finish (andthen (singles_nest s (noa s)) (singles_nest s (nob s)) (zero_counts s)).

(** count_doubles, lines 84-143: aa, ab, bb nests. *)
Definition doubles_same (s : symsys) (nocc : nat) (c : list nat) : option (list nat) :=
  loop (range 0 nocc) (fun i c => with_sym s i (fun ni =>
  loop (range (i + 1) nocc) (fun j c => with_sym s j (fun nj =>
    loop (range nocc (norb s)) (fun a c => with_sym s a (fun na =>
    loop (range (a + 1) (norb s)) (fun b c => with_sym s b (fun nb =>
      bump ((na ^^ nb ^^ nj ^^ ni) ^^ refsym s) c)) c)) c)) c)) c.
Definition doubles_mixed (s : symsys) (c : list nat) : option (list nat) :=
  loop (range 0 (noa s)) (fun i c => with_sym s i (fun ni =>
  loop (range 0 (nob s)) (fun j c => with_sym s j (fun nj =>
    loop (range (noa s) (norb s)) (fun a c => with_sym s a (fun na =>
    loop (range (nob s) (norb s)) (fun b c => with_sym s b (fun nb =>
      bump ((na ^^ nb ^^ nj ^^ ni) ^^ refsym s) c)) c)) c)) c)) c.
Definition count_doubles (s : symsys) : result :=
  finish (andthen (doubles_same s (noa s)) (andthen (doubles_mixed s) (doubles_same s (nob s))) (zero_counts s)).

(** count_triples, lines 145-241: aaa, aab, abb, bbb nests. *)
Definition triples_same (s : symsys) (nocc : nat) (c : list nat) : option (list nat) :=
  loop (range 0 nocc) (fun i c => with_sym s i (fun ni =>
  loop (range (i + 1) nocc) (fun j c => with_sym s j (fun nj =>
  loop (range (j + 1) nocc) (fun k c => with_sym s k (fun nk =>
    loop (range nocc (norb s)) (fun a c => with_sym s a (fun na =>
    loop (range (a + 1) (norb s)) (fun b c => with_sym s b (fun nb =>
    loop (range (b + 1) (norb s)) (fun e c => with_sym s e (fun nc =>
      bump (refsym s ^^ na ^^ nb ^^ nc ^^ nk ^^ nj ^^ ni) c)) c)) c)) c)) c)) c)) c.
Definition triples_aab (s : symsys) (c : list nat) : option (list nat) :=
  loop (range 0 (noa s)) (fun i c => with_sym s i (fun ni =>
  loop (range (i + 1) (noa s)) (fun j c => with_sym s j (fun nj =>
  loop (range 0 (nob s)) (fun k c => with_sym s k (fun nk =>
    loop (range (noa s) (norb s)) (fun a c => with_sym s a (fun na =>
    loop (range (a + 1) (norb s)) (fun b c => with_sym s b (fun nb =>
    loop (range (nob s) (norb s)) (fun e c => with_sym s e (fun nc =>
      bump (refsym s ^^ na ^^ nb ^^ nc ^^ nk ^^ nj ^^ ni) c)) c)) c)) c)) c)) c)) c.
Definition triples_abb (s : symsys) (c : list nat) : option (list nat) :=
  loop (range 0 (noa s)) (fun i c => with_sym s i (fun ni =>
  loop (range 0 (nob s)) (fun j c => with_sym s j (fun nj =>
  loop (range (j + 1) (nob s)) (fun k c => with_sym s k (fun nk =>
    loop (range (noa s) (norb s)) (fun a c => with_sym s a (fun na =>
    loop (range (nob s) (norb s)) (fun b c => with_sym s b (fun nb =>
    loop (range (b + 1) (norb s)) (fun e c => with_sym s e (fun nc =>
      bump (refsym s ^^ na ^^ nb ^^ nc ^^ nk ^^ nj ^^ ni) c)) c)) c)) c)) c)) c)) c.
Definition count_triples (s : symsys) : result :=
  finish (andthen (triples_same s (noa s)) (andthen (triples_aab s)
    (andthen (triples_abb s) (triples_same s (nob s)))) (zero_counts s)).

(** count_1p, lines 243-258. *)
Definition nest_1p (s : symsys) (c : list nat) : option (list nat) :=
  loop (range (noa s) (norb s)) (fun a c => with_sym s a (fun na => bump (na ^^ refsym s) c)) c.
Definition count_1p (s : symsys) : result := finish (nest_1p s (zero_counts s)).

(** count_2p1h, lines 260-296. *)
Definition nest_2p1h_a (s : symsys) (c : list nat) : option (list nat) :=
  loop (range 0 (noa s)) (fun j c => with_sym s j (fun nj =>
    loop (range (noa s) (norb s)) (fun a c => with_sym s a (fun na =>
    loop (range (a + 1) (norb s)) (fun b c => with_sym s b (fun nb =>
      bump ((na ^^ nb ^^ nj) ^^ refsym s) c)) c)) c)) c.
Definition nest_2p1h_b (s : symsys) (c : list nat) : option (list nat) :=
  loop (range 0 (nob s)) (fun j c => with_sym s j (fun nj =>
    loop (range (noa s) (norb s)) (fun a c => with_sym s a (fun na =>
    loop (range (nob s) (norb s)) (fun b c => with_sym s b (fun nb =>
      bump ((na ^^ nb ^^ nj) ^^ refsym s) c)) c)) c)) c.
Definition count_2p1h (s : symsys) : result :=
  finish (andthen (nest_2p1h_a s) (nest_2p1h_b s) (zero_counts s)).

(** count_3p2h, lines 298-362. *)
Definition nest_3p2h_a (s : symsys) (c : list nat) : option (list nat) :=
  loop (range 0 (noa s)) (fun j c => with_sym s j (fun nj =>
  loop (range (j + 1) (noa s)) (fun k c => with_sym s k (fun nk =>
    loop (range (noa s) (norb s)) (fun a c => with_sym s a (fun na =>
    loop (range (a + 1) (norb s)) (fun b c => with_sym s b (fun nb =>
    loop (range (b + 1) (norb s)) (fun e c => with_sym s e (fun nc =>
      bump (refsym s ^^ na ^^ nb ^^ nc ^^ nk ^^ nj) c)) c)) c)) c)) c)) c.
Definition nest_3p2h_b (s : symsys) (c : list nat) : option (list nat) :=
  loop (range 0 (noa s)) (fun j c => with_sym s j (fun nj =>
  loop (range 0 (nob s)) (fun k c => with_sym s k (fun nk =>
    loop (range (noa s) (norb s)) (fun a c => with_sym s a (fun na =>
    loop (range (a + 1) (norb s)) (fun b c => with_sym s b (fun nb =>
    loop (range (nob s) (norb s)) (fun e c => with_sym s e (fun nc =>
      bump (refsym s ^^ na ^^ nb ^^ nc ^^ nk ^^ nj) c)) c)) c)) c)) c)) c.
Definition nest_3p2h_c (s : symsys) (c : list nat) : option (list nat) :=
  loop (range 0 (nob s)) (fun j c => with_sym s j (fun nj =>
  loop (range (j + 1) (nob s)) (fun k c => with_sym s k (fun nk =>
    loop (range (noa s) (norb s)) (fun a c => with_sym s a (fun na =>
    loop (range (nob s) (norb s)) (fun b c => with_sym s b (fun nb =>
    loop (range (b + 1) (norb s)) (fun e c => with_sym s e (fun nc =>
      bump (refsym s ^^ na ^^ nb ^^ nc ^^ nk ^^ nj) c)) c)) c)) c)) c)) c.
Definition count_3p2h (s : symsys) : result :=
  finish (andthen (nest_3p2h_a s) (andthen (nest_3p2h_b s) (nest_3p2h_c s)) (zero_counts s)).
