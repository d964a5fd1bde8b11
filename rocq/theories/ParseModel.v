(** Model of the reader of CI wave functions, ccpy/extcorr/external_correction.py (parse_ci_wavefunction l.107-228,
    insert_ci_amplitude l.229-373), with the helpers of ccpy/utilities/determinants.py modelled in CipsiModel.v and PermModel.v.

    A file is a list of lines; a line is the coefficient and the list of spin-orbitals on it (the running number in front is
    never used).  Lines that [int] or [float] reject are not modelled.  [None] is a Python exception.  Real numbers stand for
    floating-point ones, rounding is not modelled.  Spin cases are pairs (number of alphas, number of betas). *)
From Coq Require Import List Arith ZArith Bool Reals.
From Verif Require Import CipsiModel PermModel ScatterModel.
Import ListNotations.
Local Open Scope Z_scope.

(** [np.argsort] of a list of distinct integers: the positions of its elements from the smallest to the largest (l.181; the
    list concatenates four disjoint parts of Python sets, so nothing occurs twice). *)
Fixpoint position (x : Z) (l : list Z) : nat :=
  match l with [] => 0%nat | y :: r => if x =? y then 0%nat else S (position x r) end.
Definition argsort (l : list Z) : list nat := map (fun x => position x l) (CipsiModel.isort l).

(** l.161-183: particles (alpha, beta), then holes with each spin reversed; the parity of the sorting permutation. *)
Definition excited_det_spinorb (s : sys) (det : list Z) : list Z :=
  let so := CipsiModel.get_excits_from det (HF s) in
  let su := CipsiModel.get_excits_to det (HF s) in
  CipsiModel.isort (odds su) ++ CipsiModel.isort (evens su) ++
  rev (CipsiModel.isort (odds so)) ++ rev (CipsiModel.isort (evens so)).
Definition perm_parity (s : sys) (det : list Z) : Z :=
  calculate_permutation_parity (argsort (excited_det_spinorb s det)).

(** The shapes of the arrays of [ClusterOperator(system, 3)]. *)
Definition cshape (s : sys) (na nb : nat) : list nat :=
  repeat (nua s) na ++ repeat (nub s) nb ++ repeat (noa s) na ++ repeat (nob s) nb.
(** external_correction.py l.235-237 *)
Definition ins_a : writes := fun row => match row with
  | [a; i] =>
    [([a; i], false)]
  | _ => [] end.
(** external_correction.py l.239-241 *)
Definition ins_b : writes := fun row => match row with
  | [a; i] =>
    [([a; i], false)]
  | _ => [] end.
(** external_correction.py l.243-248 *)
Definition ins_aa : writes := fun row => match row with
  | [a; b; i; j] =>
    [([a; b; i; j], false); ([b; a; i; j], true); ([a; b; j; i], true);
     ([b; a; j; i], false)]
  | _ => [] end.
(** external_correction.py l.250-252 *)
Definition ins_ab : writes := fun row => match row with
  | [a; b; i; j] =>
    [([a; b; i; j], false)]
  | _ => [] end.
(** external_correction.py l.254-259 *)
Definition ins_bb : writes := fun row => match row with
  | [a; b; i; j] =>
    [([a; b; i; j], false); ([b; a; i; j], true); ([a; b; j; i], true);
     ([b; a; j; i], false)]
  | _ => [] end.
(** external_correction.py l.261-298 *)
Definition ins_aaa : writes := fun row => match row with
  | [a; b; c; i; j; k] =>
    [([a; b; c; i; j; k], false); ([a; c; b; i; j; k], true); ([b; a; c; i; j; k], true);
     ([b; c; a; i; j; k], false); ([c; a; b; i; j; k], false); ([c; b; a; i; j; k], true);
     ([a; b; c; i; k; j], true); ([a; c; b; i; k; j], false); ([b; a; c; i; k; j], false);
     ([b; c; a; i; k; j], true); ([c; a; b; i; k; j], true); ([c; b; a; i; k; j], false);
     ([a; b; c; j; k; i], false); ([a; c; b; j; k; i], true); ([b; a; c; j; k; i], true);
     ([b; c; a; j; k; i], false); ([c; a; b; j; k; i], false); ([c; b; a; j; k; i], true);
     ([a; b; c; j; i; k], true); ([a; c; b; j; i; k], false); ([b; a; c; j; i; k], false);
     ([b; c; a; j; i; k], true); ([c; a; b; j; i; k], true); ([c; b; a; j; i; k], false);
     ([a; b; c; k; i; j], false); ([a; c; b; k; i; j], true); ([b; a; c; k; i; j], true);
     ([b; c; a; k; i; j], false); ([c; a; b; k; i; j], false); ([c; b; a; k; i; j], true);
     ([a; b; c; k; j; i], true); ([a; c; b; k; j; i], false); ([b; a; c; k; j; i], false);
     ([b; c; a; k; j; i], true); ([c; a; b; k; j; i], true); ([c; b; a; k; j; i], false)]
  | _ => [] end.
(** external_correction.py l.300-305 *)
Definition ins_aab : writes := fun row => match row with
  | [a; b; c; i; j; k] =>
    [([a; b; c; i; j; k], false); ([b; a; c; i; j; k], true); ([a; b; c; j; i; k], true);
     ([b; a; c; j; i; k], false)]
  | _ => [] end.
(** external_correction.py l.307-312 *)
Definition ins_abb : writes := fun row => match row with
  | [a; b; c; i; j; k] =>
    [([a; b; c; i; j; k], false); ([a; c; b; i; j; k], true); ([a; b; c; i; k; j], true);
     ([a; c; b; i; k; j], false)]
  | _ => [] end.
(** external_correction.py l.314-351 *)
Definition ins_bbb : writes := fun row => match row with
  | [a; b; c; i; j; k] =>
    [([a; b; c; i; j; k], false); ([a; c; b; i; j; k], true); ([b; a; c; i; j; k], true);
     ([b; c; a; i; j; k], false); ([c; a; b; i; j; k], false); ([c; b; a; i; j; k], true);
     ([a; b; c; i; k; j], true); ([a; c; b; i; k; j], false); ([b; a; c; i; k; j], false);
     ([b; c; a; i; k; j], true); ([c; a; b; i; k; j], true); ([c; b; a; i; k; j], false);
     ([a; b; c; j; k; i], false); ([a; c; b; j; k; i], true); ([b; a; c; j; k; i], true);
     ([b; c; a; j; k; i], false); ([c; a; b; j; k; i], false); ([c; b; a; j; k; i], true);
     ([a; b; c; j; i; k], true); ([a; c; b; j; i; k], false); ([b; a; c; j; i; k], false);
     ([b; c; a; j; i; k], true); ([c; a; b; j; i; k], true); ([c; b; a; j; i; k], false);
     ([a; b; c; k; i; j], false); ([a; c; b; k; i; j], true); ([b; a; c; k; i; j], true);
     ([b; c; a; k; i; j], false); ([c; a; b; k; i; j], false); ([c; b; a; k; i; j], true);
     ([a; b; c; k; j; i], true); ([a; c; b; k; j; i], false); ([b; a; c; k; j; i], false);
     ([b; c; a; k; j; i], true); ([c; a; b; k; j; i], true); ([c; b; a; k; j; i], false)]
  | _ => [] end.
Definition inserts (na nb : nat) : writes :=
  match na, nb with
  | 1, 0 => ins_a | 0, 1 => ins_b
  | 2, 0 => ins_aa | 1, 1 => ins_ab | 0, 2 => ins_bb
  | 3, 0 => ins_aaa | 2, 1 => ins_aab | 1, 2 => ins_abb | 0, 3 => ins_bbb
  | _, _ => fun _ => []
  end%nat.

(** C, C4_excits, C4_amps, excitation_count (l.109-117); quadruples are filed by the number of alphas. *)
Record pst := mkPst {
  p_arr : nat -> nat -> tensor;
  p_rows : nat -> list (list Z); p_amps : nat -> list R;
  p_count : nat -> nat -> nat }.
Definition pst0 : pst := mkPst (fun _ _ => zero_tensor) (fun _ => []) (fun _ => []) (fun _ _ => 0%nat).
Definition bump (na nb : nat) (st : pst) : pst :=
  mkPst (p_arr st) (p_rows st) (p_amps st) (fun x y => if (x =? na)%nat && (y =? nb)%nat then S (p_count st x y) else p_count st x y).
Definition set_arr (na nb : nat) (t : tensor) (st : pst) : pst :=
  mkPst (fun x y => if (x =? na)%nat && (y =? nb)%nat then t else p_arr st x y) (p_rows st) (p_amps st) (p_count st).
Definition push4 (na : nat) (row : list Z) (c : R) (st : pst) : pst :=
  mkPst (p_arr st) (fun x => if (x =? na)%nat then p_rows st x ++ [row] else p_rows st x)
        (fun x => if (x =? na)%nat then p_amps st x ++ [c] else p_amps st x) (p_count st).

Inductive pctl := PNext (st : pst) | PStop (st : pst) | PRaise.
Definition det_eqb (d d' : list Z) : bool := if list_eq_dec Z.eq_dec d d' then true else false.

(** l.149-211: one line of the second pass.  [c_hf = None] is the unset variable of l.141 (NameError at l.202); a zero
    reference coefficient is a ZeroDivisionError; an excitation of rank zero that is not literally the reference list has the
    spin case '' and raises at l.205 (KeyError). *)
Definition parse_line (s : sys) (c_hf : option R) (line : R * list Z) (st : pst) : pctl :=
  let '(coeff, det) := line in
  if det_eqb det (HF s) then PNext st
  else let rank := CipsiModel.get_excit_rank det (HF s) in
  if (4 <? rank)%nat then PNext st
  else match indices s det with
  | None => PRaise
  | Some (na, idx_unocc, idx_occ) =>
    let nb := (rank - na)%nat in
    if outside 1 (Z.of_nat (noa s)) idx_occ then PStop st
    else if outside 1 (Z.of_nat (nub s)) idx_unocc then PStop st
    else match c_hf with
    | None => PRaise
    | Some c =>
      if Req_EM_T c 0 then PRaise
      else if (rank =? 0)%nat then PRaise
      else let coefficient := (coeff / c * IZR (perm_parity s det))%R in
      let row := idx_unocc ++ idx_occ in
      if (rank =? 4)%nat then PNext (push4 na row coefficient (bump na nb st))
      else match scatter_row (cshape s na nb) (inserts na nb) (Some (p_arr st na nb)) (map Z.to_nat row) coefficient with
           | None => PRaise                 (* IndexError *)
           | Some t => PNext (set_arr na nb t (bump na nb st))
           end
    end
  end.
Fixpoint parse_lines (s : sys) (c_hf : option R) (file : list (R * list Z)) (st : pst) : option pst :=
  match file with
  | [] => Some st
  | l :: r => match parse_line s c_hf l st with
              | PNext st' => parse_lines s c_hf r st'
              | PStop st' => Some st'
              | PRaise => None
              end
  end.
(** l.131-143: the coefficient on the first line that holds the reference. *)
Fixpoint find_ref (s : sys) (file : list (R * list Z)) : option R :=
  match file with
  | [] => None
  | (c, det) :: r => if det_eqb det (HF s) then Some c else find_ref s r
  end.
(** l.221-224: C.b, C.aab and C.bbb change sign. *)
Definition sign_fix (na nb : nat) (t : tensor) : tensor :=
  match na, nb with
  | 0, 1 | 2, 1 | 0, 3 => fun l => (t l * - (1))%R
  | _, _ => t
  end%nat.
(** l.213-219: an empty list of quadruples becomes an array of no rows with one zero amplitude. *)
Definition amps_array (rows : list (list Z)) (amps : list R) : list R := match rows with [] => [0%R] | _ => amps end.
(** The whole function. *)
Definition parse_ci_wavefunction (s : sys) (file : list (R * list Z)) : option pst :=
  match parse_lines s (find_ref s file) file pst0 with
  | None => None
  | Some st => Some (mkPst (fun na nb => sign_fix na nb (p_arr st na nb)) (p_rows st)
                           (fun na => amps_array (p_rows st na) (p_amps st na)) (p_count st))
  end.
