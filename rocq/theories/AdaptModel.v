(** Model of the adaptive CC(P;Q) driver, ccpy/drivers/adaptive.py, class AdaptDriver (non-Cholesky path). *)
From Coq Require Import List Arith Bool String QArith Qround ZArith Reals.
From Verif Require Import SelectModel DriverModel.
Import ListNotations.
Open Scope nat_scope.

(** ** excitation_count, 52-87 *)
(** int(): truncation towards zero *)
Definition trunc (x : Q) : Z := if Qle_bool 0 x then Qfloor x else Qceiling x.
(** self.one_increment = int(0.01 * total), line 73. Simplification: the product is taken exactly; in double precision it has the same integer part
    for every total below 10^13. *)
Definition one_increment (total : Z) : Z := (total / 100)%Z.
(** Loop body, lines 76-80, for neighbouring percentages *)
Definition increment (total : Z) (p q : Q) : Q :=
  if Qeq_bool q 100 then inject_Z total - inject_Z (one_increment total) * p else inject_Z (one_increment total) * (q - p).
(** Lines 75-81: one entry per percentage, the last one being 1 *)
Fixpoint increments (total : Z) (ps : list Q) : list Q :=
  match ps with
  | [] => []
  | p :: rest => match rest with [] => [1%Q] | q :: _ => increment total p q :: increments total rest end
  end.
(** Lines 85-87 *)
Definition halve (rhf : bool) (l : list Q) : list Q := if rhf then map (fun x => inject_Z (trunc (x / 2))) l else l.
(** The percentage scheme; line 81 raises IndexError on an empty list *)
Definition dets_to_add (rhf : bool) (total : Z) (ps : list Q) : option (list Q) := match ps with [] => None | _ => Some (halve rhf (increments total ps)) end.
(** The fixed-growth scheme, lines 58-69: [n] singles (or singles and doubles) of the reference symmetry, [f] the selection factor *)
Definition dets_to_add_fixed (rhf : bool) (n : Z) (f : Q) (nmacro : nat) : list Q := halve rhf (repeat (inject_Z (trunc (inject_Z n * f))) (nmacro - 1)).

(** ** The loop *)
(** AdaptDriver attributes; bare_hamiltonian is a deep copy of the driver's Hamiltonian at construction, lines 11-43 *)
Record adapt := mkAdapt { a_drv : drv; a_nmacro : nat; a_lists : lists; a_counts : counts; a_bare : ham }.
Definition ones6 : row := [1; 1; 1; 1; 1; 1].
(** __init__: nmacro is computed from the default maximum_iterations = 10 (line 17) or the number of percentages *)
Definition new_adapt (d : drv) (percentage : option (list Q)) : adapt :=
  mkAdapt d (match percentage with None => 11 | Some ps => List.length ps end) (fun _ => [ones6]) (fun _ _ => 0) (d_ham d).
(** Options read by run(); maximum_iterations is only printed (line 319) *)
Record options := { o_two_body : bool; o_reset : bool; o_tol : R; o_ndet_max : nat; o_maximum_iterations : nat }.
(** n_det, lines 254-272 *)
Definition n_det (base : nat) (l : lists) : nat :=
  let offset s := if row_eq_dec (hd [] (l s)) ones6 then 1 else 0 in
  base + (List.length (l aaa) + List.length (l aab) + List.length (l abb) + List.length (l bbb) - (offset aaa + offset aab + offset abb + offset bbb)).
(** Calls in sequence, up to the first that raises *)
Fixpoint calls (d : drv) (cs : list cmd) : result :=
  match cs with
  | [] => (d, [], true)
  | c :: cs => let '(d, es, ok) := call d c in if ok then let '(d', es', ok') := calls d cs in (d', (es ++ es')%list, ok') else (d, es, false)
  end.
(** run_ccp, lines 103-112. The excitation lists have equal numbers of aaa and bbb, aab and abb rows or the driver raises (under RHF symmetry).
    [fin k] says whether the k-th numerical routine of the iteration returns. Simplification: under RHF symmetry the driver also rewrites the bbb and
    abb lists as copies of aaa and aab; they are equal already (C17_restricted_invariant). *)
Definition ccp_calls (two_body : bool) (l : lists) (fin : nat -> bool) : list cmd :=
  let sp := (List.length (l aaa) =? List.length (l bbb)) && (List.length (l aab) =? List.length (l abb)) in
  CCP "ccsdt_p" sp (fin 0) ::
  if two_body then [Hb "ccsd" (fin 1); Left "left_ccsd" [0] (fun _ => fin 2)] else [Hb "ccsdt_p" (fin 1); LeftP "left_ccsdt_p" [0] (fun _ => fin 2)].
(** run_ccp3, lines 125-166: before the last iteration the correction with selection, which reads T and L[0]; in the last the driver's own *)
Definition correct (o : options) (d : drv) (last fin : bool) : result :=
  if last then call d (CCP3 "ccp3" (One 0) (o_two_body o) 0 (fun _ => fin))
  else match d_T d, d_L d 0 with Some _, Some l => (d, [ev SCorr "ccp3_with_selection" d (Some l)], fin) | _, _ => raise d end.
(** Step 6, lines 333-343 *)
Definition reset_driver (o : options) (d : drv) (bare : ham) : drv :=
  let d := if o_reset o then
             mkDrv (d_ham d) (d_flag d) (d_rhf d) (d_solver d) (p_ord d) (p_np d) (p_nh d) (p_act d) (p_psp d) (s_np d) (s_nh d) None (upd (d_L d) 0 None) (d_R d) (d_fock d) (d_guess d) (d_gord d) (d_d3 d)
           else d in
  with_ham d bare (d_flag d) (d_fock d).
Inductive outcome := Converged | Full | Last | Raised.
(** What one macro-iteration leaves: its number, the P space it used, n_det and the routines it ran *)
Record macro := mkMacro { m_i : nat; m_lists : lists; m_ndet : nat; m_events : list event }.
(** The loop of run(), lines 246-343, from iteration [i] on, [k] iterations remaining. The CC(P;Q) energy and the list of selected determinants of
    iteration i are [epq i] and [sel i]. *)
Section Loop.
Variables (y : symdata) (o : options) (base : nat) (epq : nat -> R) (sel : nat -> list row) (fin : nat -> nat -> bool).
Fixpoint loop (k i : nat) (a : adapt) : adapt * list macro * outcome :=
  match k with
  | 0 => (a, [], Last)                                                     (* range(0): no iteration at all *)
  | S k' =>
    let nd := n_det base (a_lists a) in
    let '(d1, es1, ok1) := calls (a_drv a) (ccp_calls (o_two_body o) (a_lists a) (fin i)) in
    let here es := mkMacro i (a_lists a) nd es in
    let at_ d := mkAdapt d (a_nmacro a) (a_lists a) (a_counts a) (a_bare a) in
    if negb ok1 then (at_ d1, [here es1], Raised) else
    let '(d2, es2, ok2) := correct o d1 (i =? a_nmacro a - 1) (fin i 3) in
    let es := (es1 ++ es2)%list in
    if negb ok2 then (at_ d2, [here es], Raised) else
    if (0 <? i) && (if Rlt_dec (Rabs (epq i - epq (i - 1))) (o_tol o) then true else false) then (at_ d2, [here es], Converged) else
    if (0 <? i) && (o_ndet_max o <=? nd) then (at_ d2, [here es], Full) else
    if i =? a_nmacro a - 1 then (at_ d2, [here es], Last) else
    match add_spinorbital_triples_to_pspace y (d_rhf d2) (sel i) (a_lists a) (a_counts a) with
    | None => (at_ d2, [here es], Raised)
    | Some (l', n') =>
      let '(a', ms, out) := loop k' (S i) (mkAdapt (reset_driver o d2 (a_bare a)) (a_nmacro a) l' n' (a_bare a)) in (a', here es :: ms, out)
    end
  end.
End Loop.
Definition run y o base epq sel fin (a : adapt) := loop y o base epq sel fin (a_nmacro a) 0 a.
