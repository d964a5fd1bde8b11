(** Model of ccpy/models/system.py, class System (lines 5-96). *)
From Coq Require Import ZArith NArith List.
Import ListNotations.
Open Scope Z_scope.

(** Fields of a System object that the constructor computes from integers.
    Models ccpy/models/system.py lines 29-39 and 85-93 (attribute names kept).
    Simplified: strings, energies and the printing members are left out. *)
Record system := mkSystem {
  nelectrons : Z;
  norbitals : Z;
  s_nfrozen : Z;
  s_ndelete : Z;
  s_multiplicity : Z;
  noccupied_alpha : Z;
  noccupied_beta : Z;
  nunoccupied_alpha : Z;
  nunoccupied_beta : Z;
  num_act_occupied_alpha : Z;
  num_core_alpha : Z;
  num_act_occupied_beta : Z;
  num_core_beta : Z;
  num_act_unoccupied_alpha : Z;
  num_virt_alpha : Z;
  num_act_unoccupied_beta : Z;
  num_virt_beta : Z
}.

(** Python [int(x / 2)]: float division then truncation toward zero.
    ccpy/models/system.py lines 36-37.  (Exact for |x| < 2^53, assumed.) *)
Definition int_half (x : Z) : Z := Z.quot x 2.

(** System.set_active_space, ccpy/models/system.py lines 85-93.
    Line 93 really uses nunoccupied_alpha. *)
Definition set_active_space (s : system) (nact_occupied nact_unoccupied : Z) : system :=
  let aoa := Z.min (noccupied_alpha s) ((s_multiplicity s - 1) + nact_occupied) in
  let aob := Z.min (noccupied_beta s) nact_occupied in
  let aua := Z.min (nunoccupied_alpha s) nact_unoccupied in
  let aub := Z.min (nunoccupied_beta s) ((s_multiplicity s - 1) + nact_unoccupied) in
  {| nelectrons := nelectrons s;
     norbitals := norbitals s;
     s_nfrozen := s_nfrozen s;
     s_ndelete := s_ndelete s;
     s_multiplicity := s_multiplicity s;
     noccupied_alpha := noccupied_alpha s;
     noccupied_beta := noccupied_beta s;
     nunoccupied_alpha := nunoccupied_alpha s;
     nunoccupied_beta := nunoccupied_beta s;
     num_act_occupied_alpha := aoa;
     num_core_alpha := Z.max 0 (noccupied_alpha s - aoa);
     num_act_occupied_beta := aob;
     num_core_beta := Z.max 0 (noccupied_beta s - aob);
     num_act_unoccupied_alpha := aua;
     num_virt_alpha := Z.max 0 (nunoccupied_alpha s - aua);
     num_act_unoccupied_beta := aub;
     num_virt_beta := Z.max 0 (nunoccupied_alpha s - aub) |}.

(** System.set_full_active_space, ccpy/models/system.py lines 95-96. *)
Definition set_full_active_space (s : system) : system :=
  set_active_space s (noccupied_alpha s) (nunoccupied_beta s).

(** System.__init__, ccpy/models/system.py lines 29-41 (integer part). *)
Definition make_system (nelec norb mult nfrozen ndelete nact_occ nact_unocc : Z) : system :=
  let ne := nelec - 2 * nfrozen in
  let no := norb - nfrozen - ndelete in
  let noa := int_half (ne + mult - 1) in
  let nob := int_half (ne - mult + 1) in
  set_active_space
    {| nelectrons := ne; norbitals := no; s_nfrozen := nfrozen; s_ndelete := ndelete;
       s_multiplicity := mult;
       noccupied_alpha := noa; noccupied_beta := nob;
       nunoccupied_alpha := no - noa; nunoccupied_beta := no - nob;
       num_act_occupied_alpha := 0; num_core_alpha := 0;
       num_act_occupied_beta := 0; num_core_beta := 0;
       num_act_unoccupied_alpha := 0; num_virt_alpha := 0;
       num_act_unoccupied_beta := 0; num_virt_beta := 0 |}
    nact_occ nact_unocc.

(** Python [[x] * n]: empty for n <= 0.  Used in lines 52-55. *)
Definition py_repeat {A} (x : A) (n : Z) : list A := repeat x (Z.to_nat n).

(** Default mo_occupation, ccpy/models/system.py lines 51-58, with the assertion of line 57.
    Occupations 2.0/1.0/0.0 are the integers 2/1/0 (line 78 applies int()). *)
Definition default_mo_occupation (s : system) : option (list nat) :=
  let occ := (py_repeat 2%nat (s_nfrozen s) ++ py_repeat 2%nat (noccupied_beta s)
              ++ py_repeat 1%nat (noccupied_alpha s - noccupied_beta s)
              ++ py_repeat 0%nat (norbitals s - noccupied_alpha s))%list in
  if Z.of_nat (length occ) =? norbitals s + s_nfrozen s then Some occ else None.

(** Inner loop of lines 78-79: xor the irrep number [n] times. *)
Fixpoint xor_times (n : nat) (irr sym : N) : N :=
  match n with
  | O => sym
  | S m => xor_times m irr (N.lxor sym irr)
  end.

(** Loop of lines 76-79 over the first [n] orbitals; list indexing past the end
    raises IndexError in Python = None here. [irreps] is orbital_symmetries_all
    already mapped through point_group_irrep_to_number. *)
Fixpoint ref_sym_loop (n : nat) (occ : list nat) (irreps : list N) (sym : N) : option N :=
  match n with
  | O => Some sym
  | S m =>
      match occ with
      | [] => None
      | o :: occ' =>
          match o, irreps with
          | O, [] => ref_sym_loop m occ' [] sym
          | O, _ :: ir' => ref_sym_loop m occ' ir' sym
          | S _, [] => None
          | S _, x :: ir' => ref_sym_loop m occ' ir' (xor_times o x sym)
          end
      end
  end.

(** reference_symmetry (as an irrep number), lines 76-80. [mo_occ = None] means the
    default occupation. *)
Definition reference_symmetry (s : system) (mo_occ : option (list nat)) (irreps : list N) : option N :=
  match (match mo_occ with Some o => Some o | None => default_mo_occupation s end) with
  | None => None
  | Some occ => ref_sym_loop (Z.to_nat (s_nfrozen s + noccupied_alpha s)) occ irreps 0%N
  end.

(** orbital_symmetries = orbital_symmetries_all[nfrozen:], line 83 (nfrozen >= 0). *)
Definition orbital_symmetries {A} (s : system) (irreps : list A) : list A :=
  skipn (Z.to_nat (s_nfrozen s)) irreps.
