(** Model of the calculation driver, ccpy/drivers/driver.py: which routine runs on which Hamiltonian and which operators, for every
    sequence of calls, including calls that raise.
    The numerical routines are opaque: each call carries a boolean (per state, [fin]) saying whether the numerical routine returned;
    a call that raises keeps the attribute assignments made before the exception. A value is represented by where it comes from:
    [ham] by how it was built, operators by their shape. Printing, timings and energies are left out. *)
From Coq Require Import List Arith Bool String Ascii.
Import ListNotations.
Open Scope string_scope.
Open Scope nat_scope.

(** str.lower on ASCII *)
Definition lower_ascii (c : ascii) : ascii := let n := nat_of_ascii c in if (65 <=? n) && (n <=? 90) then ascii_of_nat (n + 32) else c.
Fixpoint lower (s : string) : string := match s with EmptyString => EmptyString | String c s => String (lower_ascii c) (lower s) end.
Definition isin (m : string) (l : list string) : bool := existsb (String.eqb (lower m)) l.

(** self.hamiltonian: the integrals the driver was created with, the output of build_hbar_m on T and a Hamiltonian, what is left of a
    Hamiltonian when build_hbar_m raises half-way, or a Hamiltonian after remove_VT3_intermediates (hbar_ccsdt_p.py 353-395) *)
Inductive ham := Bare | HBar (m : string) (h : ham) | Partly (m : string) (h : ham) | NoVT3 (h : ham).
(** Shape of an amplitude operator: particles, holes, order, spin-flip, P-space order *)
Record oper := mkOper { o_np : nat; o_nh : nat; o_ord : nat; o_sf : bool; o_psp : option nat }.
Record drv := mkDrv {
  d_ham : ham; d_flag : bool;                           (* hamiltonian, flag_hbar *)
  d_rhf : bool; d_solver : string;                      (* options["RHF_symmetry"], options["davidson_solver"] *)
  p_ord : nat; p_np : nat; p_nh : nat;                  (* operator_params order, number_particles, number_holes *)
  p_act : option nat; p_psp : option nat;               (* number_active_indices, pspace_orders *)
  s_np : option nat; s_nh : option nat;                 (* attributes num_particles, num_holes; None: not yet defined *)
  d_T : option oper; d_L : nat -> option oper; d_R : nat -> option oper;
  d_fock : ham;                                         (* the Hamiltonian whose Fock blocks self.fock holds *)
  d_guess : option ham; d_gord : nat;                   (* guess_vectors (built from which Hamiltonian), guess_order *)
  d_d3 : nat -> option ham }.                           (* deltap3: computed with which Hamiltonian *)

(** __init__, 68-134; [closed] is noccupied_alpha == noccupied_beta *)
Definition new_driver (closed : bool) : drv :=
  mkDrv Bare false closed "standard" 0 0 0 None None None None None (fun _ => None) (fun _ => None) Bare None 0 (fun _ => None).

Definition set_params (d : drv) (o np nh : nat) (psp : option nat) : drv :=
  mkDrv (d_ham d) (d_flag d) (d_rhf d) (d_solver d) o np nh (p_act d) (match psp with Some _ => psp | None => p_psp d end) (s_np d) (s_nh d) (d_T d) (d_L d) (d_R d) (d_fock d) (d_guess d) (d_gord d) (d_d3 d).
Definition set_attrs (d : drv) (np nh : nat) : drv :=
  mkDrv (d_ham d) (d_flag d) (d_rhf d) (d_solver d) (p_ord d) (p_np d) (p_nh d) (p_act d) (p_psp d) (Some np) (Some nh) (d_T d) (d_L d) (d_R d) (d_fock d) (d_guess d) (d_gord d) (d_d3 d).
(** set_operator_params, 140-224; self.order and self.Ms are written but never read and are left out *)
Definition set_operator_params (d : drv) (m : string) : drv :=
  if isin m ["ccs"] then set_params d 1 1 1 None
  else if isin m ["cc2"; "ccd"; "ccsd"; "ccsd_chol"; "accd"; "accsd"; "eomcc2"; "eomccsd"; "eomccsd_chol"; "left_ccsd"; "left_ccsd_chol"; "eccc2"; "cc3"; "eomcc3"; "lrccsd"] then set_params d 2 2 2 None
  else if isin m ["ccsdt"; "ccsdt_chol"; "eomccsdt"; "left_ccsdt"; "cc4"; "cc4-old"; "lrccsdt"] then set_params d 3 3 3 None
  else if isin m ["ccsdtq"] then set_params d 4 4 4 None
  else if isin m ["ccsdt_p"; "ccsdt_p_chol"; "accsdt_p"; "eomccsdt_p"; "left_ccsdt_p"; "lrccsdt_p"] then set_params d 3 3 3 (Some 3)
  else if isin m ["ipeom2"; "left_ipeom2"] then set_attrs d 1 2
  else if isin m ["ipeom3"; "left_ipeom3"; "ipeomccsdta"; "ipeomccsdt"] then set_attrs d 2 3
  else if isin m ["ipeom3_p"; "left_ipeom3_p"; "ipeomccsdt_p"] then set_params d 3 2 3 (Some 2)
  else if isin m ["eaeom2"; "left_eaeom2"] then set_attrs d 2 1
  else if isin m ["eaeom3"; "left_eaeom3"; "eaeomccsdta"; "eaeomccsdt"] then set_attrs d 3 2
  else if isin m ["eaeom3_p"; "left_eaeom3_p"] then set_params d 3 3 2 (Some 2)
  else if isin m ["dipeom3"; "left_dipeom3"] then set_attrs d 1 3
  else if isin m ["dipeom4"; "left_dipeom4"; "dipeomccsdt"; "dipeomccsdta"] then set_attrs d 2 4
  else if isin m ["deaeom2"; "left_deaeom2"] then set_attrs d 2 0
  else if isin m ["deaeom3"; "left_deaeom3"] then set_attrs d 3 1
  else if isin m ["deaeom4"; "left_deaeom4"] then set_attrs d 4 2
  else if isin m ["deaeom4_p"; "left_deaeom4_p"] then set_params d 4 4 2 (Some 2)
  else d.                                               (* sfeomccsd, sfeomcc23 (only self.order and self.Ms), and unknown names *)

(** The MODULES lists: ccpy/{cc,hbar,left,eomcc,eom_guess,lrcc}/__init__.py *)
Definition cc_modules := ["cc2"; "ccd"; "ccsd"; "ccsd_chol"; "accd"; "accsd"; "cc3"; "ccsdt"; "ccsdt_chol"; "cc4-old"; "cc4"; "ccsdtq"; "ccsdt_p"; "ccsdt_p_chol"; "accsdt_p"; "eccc2"].
Definition hbar_modules := ["hbar_ccs"; "hbar_cc2"; "hbar_ccsd"; "hbar_ccsd_chol"; "hbar_cc3"; "hbar_ccsdta"; "hbar_ccsdt"; "hbar_ccsdt1"; "hbar_ccsdt_p"].
Definition left_modules := ["left_ccsd"; "left_ccsd_chol"; "left_ccsdt"; "left_ccsdt_p"; "left_ipeom2"; "left_ipeom3"; "left_ipeom3_p"; "left_eaeom2"; "left_eaeom3"; "left_eaeom3_p"].
Definition eom_modules := ["eomcc2"; "eomccsd"; "eomccsd_chol"; "eomcc3"; "eomccsdt"; "eomccsdt_p"; "ipeom2"; "ipeom3"; "ipeom3_p"; "ipeomccsdta"; "ipeomccsdt_p"; "ipeomccsdt"; "eaeom2"; "eaeom3"; "eaeom3_p"; "eaeomccsdt"; "sfeomccsd"; "sfeomcc23"; "deaeom2"; "deaeom3"; "deaeom4"; "deaeom4_p"; "dipeom3"; "dipeom4"; "dipeomccsdt"; "dipeomccsdta"; "teaeom2"].
Definition guess_modules := ["cis"; "cisd"; "cisd_chol"; "cisd_matrix"; "sfcis"; "deacis"; "dipcis"; "ipcis"; "ipcisd"; "eacis"; "eacisd"].
Definition lr_modules := ["lrccsd"].

(** What reaches a numerical routine: step, method, Hamiltonian, operator shape, RHF flag *)
Inductive step := SCC | SCCP | SLR | SHbar | SGuess | SEomP | SEomMulti | SEom | SSf | SFock | SFockP | SLeft | SLeftEom | SLeftP | SLeftFock | SLeftFockP | SCorr.
Record event := mkEv { e_step : step; e_method : string; e_ham : ham; e_oper : option oper; e_rhf : bool }.
(** Result of a call: state afterwards, routines run, and whether it returned (false: exception) *)
Definition result := (drv * list event * bool)%type.
Definition raise (d : drv) : result := (d, [], false).
Definition with_T (d : drv) (t : option oper) : drv :=
  mkDrv (d_ham d) (d_flag d) (d_rhf d) (d_solver d) (p_ord d) (p_np d) (p_nh d) (p_act d) (p_psp d) (s_np d) (s_nh d) t (d_L d) (d_R d) (d_fock d) (d_guess d) (d_gord d) (d_d3 d).
Definition upd {A} (f : nat -> A) (i : nat) (x : A) : nat -> A := fun j => if j =? i then x else f j.
Definition with_R (d : drv) (i : nat) (r : oper) : drv :=
  mkDrv (d_ham d) (d_flag d) (d_rhf d) (d_solver d) (p_ord d) (p_np d) (p_nh d) (p_act d) (p_psp d) (s_np d) (s_nh d) (d_T d) (d_L d) (upd (d_R d) i (Some r)) (d_fock d) (d_guess d) (d_gord d) (d_d3 d).
Definition with_L (d : drv) (i : nat) (r : oper) : drv :=
  mkDrv (d_ham d) (d_flag d) (d_rhf d) (d_solver d) (p_ord d) (p_np d) (p_nh d) (p_act d) (p_psp d) (s_np d) (s_nh d) (d_T d) (upd (d_L d) i (Some r)) (d_R d) (d_fock d) (d_guess d) (d_gord d) (d_d3 d).
Definition with_ham (d : drv) (h : ham) (fl : bool) (fk : ham) : drv :=
  mkDrv h fl (d_rhf d) (d_solver d) (p_ord d) (p_np d) (p_nh d) (p_act d) (p_psp d) (s_np d) (s_nh d) (d_T d) (d_L d) (d_R d) fk (d_guess d) (d_gord d) (d_d3 d).
Definition with_solver (d : drv) (s : string) : drv :=
  mkDrv (d_ham d) (d_flag d) (d_rhf d) s (p_ord d) (p_np d) (p_nh d) (p_act d) (p_psp d) (s_np d) (s_nh d) (d_T d) (d_L d) (d_R d) (d_fock d) (d_guess d) (d_gord d) (d_d3 d).
Definition with_act (d : drv) (n : option nat) : drv :=
  mkDrv (d_ham d) (d_flag d) (d_rhf d) (d_solver d) (p_ord d) (p_np d) (p_nh d) n (p_psp d) (s_np d) (s_nh d) (d_T d) (d_L d) (d_R d) (d_fock d) (d_guess d) (d_gord d) (d_d3 d).
Definition with_guess (d : drv) (rhf : bool) (o : nat) (g : option ham) : drv :=
  mkDrv (d_ham d) (d_flag d) rhf (d_solver d) (p_ord d) (p_np d) (p_nh d) (p_act d) (p_psp d) (s_np d) (s_nh d) (d_T d) (d_L d) (d_R d) (d_fock d) g o (d_d3 d).
Definition with_d3 (d : drv) (i : nat) (h : ham) : drv :=
  mkDrv (d_ham d) (d_flag d) (d_rhf d) (d_solver d) (p_ord d) (p_np d) (p_nh d) (p_act d) (p_psp d) (s_np d) (s_nh d) (d_T d) (d_L d) (d_R d) (d_fock d) (d_guess d) (d_gord d) (upd (d_d3 d) i (Some h)).
(** ClusterOperator, SpinFlipOperator and FockOperator built from the current parameters *)
Definition cluster (d : drv) : oper := mkOper (p_ord d) (p_ord d) (p_ord d) false None.
Definition cluster_p (d : drv) : oper := mkOper (p_ord d) (p_ord d) (p_ord d) false (p_psp d).
Definition spinflip (d : drv) : oper := mkOper (p_ord d) (p_ord d) (p_ord d) true None.
Definition fockop (np nh : nat) : oper := mkOper np nh (Nat.max np nh) false None.
Definition fockop_p (d : drv) : oper := mkOper (p_np d) (p_nh d) (Nat.max (p_np d) (p_nh d)) false (p_psp d).
Definition ev (s : step) (m : string) (d : drv) (o : option oper) : event := mkEv s m (d_ham d) o (d_rhf d).

(** run_cc, 254-311 (the CC4 assertion of 273-274 included) *)
Definition run_cc (d : drv) (m : string) (fin : bool) : result :=
  if negb (isin m cc_modules) then raise d else
  let d := set_operator_params d m in
  if isin m ["cc4"] && negb (d_rhf d) then raise d else
  let d := match d_T d with None => with_T d (Some (cluster d)) | Some _ => d end in
  (d, [ev SCC m d (d_T d)], fin).
(** run_ccp, 313-392; [sp]: the excitation counts satisfy n3aaa = n3bbb and n3aab = n3abb *)
Definition run_ccp (d : drv) (m : string) (sp fin : bool) : result :=
  if negb (isin m cc_modules) then raise d else
  let d := set_operator_params d m in
  if d_rhf d && negb sp then raise d else
  let d := match d_T d with None => with_T d (Some (cluster_p d)) | Some _ => d end in
  (d, [ev SCCP m d (d_T d)], fin).
(** run_lrcc, 394-453 *)
Definition run_lrcc (d : drv) (m : string) (fin : bool) : result :=
  if negb (isin m lr_modules) then raise d else
  if negb (d_flag d) then raise d else
  let d := set_operator_params d m in (d, [ev SLR m d (Some (cluster d))], fin).
(** run_hbar, 455-478. The build functions of CCSD, CCSD (Cholesky), CC3, CCSDT and CC(P) overwrite their argument (H = H0: hbar_ccsd.py 7,
    hbar_ccsd_chol.py 7, hbar_cc3.py 149, hbar_ccsdt.py 6, hbar_ccsdt_p.py 7); those of CC2, CCSDT1 and CCSDT(a) work on a copy. hbar_ccs.py is in
    the list of modules but defines no build_hbar_ccs. For "ccsdta" self.fock becomes the present Hamiltonian. *)
Definition inplace (m : string) : bool := isin m ["ccsd"; "ccsd_chol"; "cc3"; "ccsdt"; "ccsdt_p"].
Definition run_hbar (d : drv) (m : string) (fin : bool) : result :=
  if negb (isin ("hbar_" ++ m) hbar_modules) then raise d else
  if isin m ["ccs"] then raise d else
  match d_T d with
  | None => raise d                                       (* T.a of None *)
  | Some t =>
    let fk := if isin m ["ccsdta"] then d_ham d else d_fock d in
    let e := ev SHbar m d (Some t) in
    if fin then (with_ham d (HBar (lower m) (d_ham d)) true fk, [e], true)
    else (with_ham d (if inplace m then Partly (lower m) (d_ham d) else d_ham d) (d_flag d) fk, [e], false)
  end.
(** run_guess, 480-502 *)
Definition run_guess (d : drv) (m : string) (mult : nat) (fin : bool) : result :=
  if negb (isin m guess_modules) then raise d else
  let o := if isin m ["cis"; "sfcis"; "eacis"; "ipcis"] then 1
           else if isin m ["cisd"; "cisd_chol"; "sfcisd"; "deacis"; "dipcis"; "eacisd"; "ipcisd"] then 2 else d_gord d in
  let rhf := if mult =? 1 then d_rhf d else false in
  let e := mkEv SGuess m (d_ham d) None rhf in
  (with_guess d rhf o (if fin then Some (d_ham d) else d_guess d), [e], fin).

(** Filling in missing vectors from the guess: [for i in state_index: if self.R[i] is None: ...]; raises without guess vectors *)
Fixpoint fill_R (d : drv) (o : oper) (states : list nat) : drv * bool :=
  match states with
  | [] => (d, true)
  | i :: l => match d_R d i with
              | Some _ => fill_R d o l
              | None => let d' := with_R d i o in match d_guess d with None => (d', false) | Some _ => fill_R d' o l end
              end
  end.
(** One solver run per state, stopping at the first that raises *)
Fixpoint each (f : nat -> event) (fin : nat -> bool) (states : list nat) : list event * bool :=
  match states with [] => ([], true) | i :: l => if fin i then let (es, b) := each f fin l in (f i :: es, b) else ([f i], false) end.
Definition solve_R (s : step) (m : string) (d : drv) (o : oper) (states : list nat) (fin : nat -> bool) : result :=
  let (d, ok) := fill_R d o states in
  if ok then let (es, b) := each (fun i => ev s m d (d_R d i)) fin states in (d, es, b) else raise d.
(** run_eomcc, 690-791: EOM-CC3 switches options["davidson_solver"] to "diis", whose branch insists on EOM-CC3 *)
Definition run_eomcc (d : drv) (m : string) (states : list nat) (fin : nat -> bool) : result :=
  if negb (isin m eom_modules) then raise d else
  let d := set_operator_params d m in
  let d := if isin m ["eomcc3"] then with_solver d "diis" else d in
  if negb (d_flag d) then raise d else
  let (d, ok) := fill_R d (cluster d) states in
  if negb ok then raise d else
  if String.eqb (d_solver d) "diis" && negb (isin m ["eomcc3"]) then raise d else
  let (es, b) := each (fun i => ev SEom m d (d_R d i)) fin states in (d, es, b).
(** run_eomccp, 504-590: one state; no check of flag_hbar *)
Definition run_eomccp (d : drv) (m : string) (i : nat) (sp : bool) (fin : nat -> bool) : result :=
  if negb (isin m eom_modules) then raise d else
  let d := set_operator_params d m in
  if d_rhf d && negb sp then raise d else
  solve_R SEomP m d (cluster_p d) [i] fin.
(** run_eomcc_multiroot, 592-688 *)
Definition run_eomcc_multiroot (d : drv) (m : string) (states : list nat) (sp : bool) (fin : nat -> bool) : result :=
  if negb (isin m eom_modules) then raise d else
  let d := set_operator_params d m in
  if negb (d_flag d) then raise d else
  if d_rhf d && negb sp then raise d else
  solve_R SEomMulti m d (cluster_p d) states fin.
(** run_sfeomcc, 793-852 *)
Definition run_sfeomcc (d : drv) (m : string) (states : list nat) (fin : nat -> bool) : result :=
  if negb (isin m eom_modules) then raise d else
  let d := set_operator_params d m in
  if negb (d_flag d) then raise d else solve_R SSf m d (spinflip d) states fin.
(** run_deaeomcc 854-914, run_dipeomcc 983-1043, run_ipeomcc 1045-1126, run_eaeomcc 1266-1328: the same up to printing *)
Definition run_fock (d : drv) (m : string) (states : list nat) (fin : nat -> bool) : result :=
  if negb (isin m eom_modules) then raise d else
  let d := set_operator_params d m in
  if negb (d_flag d) then raise d else
  match s_np d, s_nh d with Some np, Some nh => solve_R SFock m d (fockop np nh) states fin | _, _ => raise d end.
(** run_deaeomccp 916-981, run_ipeomccp 1128-1193, run_eaeomccp 1330-1395, and the multiroot versions 1195-1264, 1397-1466 *)
Definition run_fock_p (d : drv) (m : string) (states : list nat) (fin : nat -> bool) : result :=
  if negb (isin m eom_modules) then raise d else
  let d := set_operator_params d m in
  if negb (d_flag d) then raise d else solve_R SFockP m d (fockop_p d) states fin.

(** Left states: [if self.L[i] is None: create; fill from T (state 0) or R[i]]. [ground]: state 0 is filled from T *)
Fixpoint fill_L (ground : bool) (d : drv) (o : oper) (states : list nat) : drv * bool :=
  match states with
  | [] => (d, true)
  | i :: l => match d_L d i with
              | Some _ => fill_L ground d o l
              | None => let d' := with_L d i o in
                        match (if ground && (i =? 0) then d_T d else d_R d i) with None => (d', false) | Some _ => fill_L ground d' o l end
              end
  end.
(** run_leftcc 1468-1529, run_leftccp 1593-1689: fill and solve state by state *)
Fixpoint left_loop (s : step) (m : string) (d : drv) (o : oper) (states : list nat) (fin : nat -> bool) : result :=
  match states with
  | [] => (d, [], true)
  | i :: l =>
    let (d, ok) := fill_L true d o [i] in
    if negb ok then raise d else
    let e := ev s m d (d_L d i) in
    if fin i then let '(d, es, b) := left_loop s m d o l fin in (d, e :: es, b) else (d, [e], false)
  end.
Definition run_leftcc (d : drv) (m : string) (states : list nat) (fin : nat -> bool) : result :=
  if negb (isin m left_modules) then raise d else
  let d := set_operator_params d m in
  if negb (d_flag d) then raise d else left_loop SLeft m d (cluster d) states fin.
Definition run_leftccp (d : drv) (m : string) (states : list nat) (fin : nat -> bool) : result :=
  if negb (isin m left_modules) then raise d else
  let d := set_operator_params d m in
  if negb (d_flag d) then raise d else left_loop SLeftP m d (cluster_p d) states fin.
(** run_lefteomcc 1531-1591, run_lefteomccp 1691-1769, run_leftipeomcc 1771-1830, run_lefteaeomcc 1832-1891 and P-space forms 1893-2041: fill
    every state from R, then solve *)
Definition solve_L (s : step) (m : string) (d : drv) (o : oper) (states : list nat) (fin : nat -> bool) : result :=
  let (d, ok) := fill_L false d o states in
  if ok then let (es, b) := each (fun i => ev s m d (d_L d i)) fin states in (d, es, b) else raise d.
Definition run_lefteomcc (d : drv) (m : string) (states : list nat) (fin : nat -> bool) : result :=
  if negb (isin m left_modules) then raise d else
  let d := set_operator_params d m in
  if negb (d_flag d) then raise d else solve_L SLeftEom m d (cluster d) states fin.
Definition run_lefteomccp (d : drv) (m : string) (i : nat) (fin : nat -> bool) : result :=
  if negb (isin m left_modules) then raise d else
  let d := set_operator_params d m in
  if negb (d_flag d) then raise d else solve_L SLeftP m d (cluster_p d) [i] fin.
Definition run_leftfock (d : drv) (m : string) (states : list nat) (fin : nat -> bool) : result :=
  if negb (isin m left_modules) then raise d else
  let d := set_operator_params d m in
  if negb (d_flag d) then raise d else
  match s_np d, s_nh d with Some np, Some nh => solve_L SLeftFock m d (fockop np nh) states fin | _, _ => raise d end.
Definition run_leftfock_p (d : drv) (m : string) (i : nat) (fin : nat -> bool) : result :=
  if negb (isin m left_modules) then raise d else
  let d := set_operator_params d m in
  if negb (d_flag d) then raise d else solve_L SLeftFockP m d (fockop_p d) [i] fin.

(** Noniterative corrections. One state: the correction needs L[i] (and R[i] for i > 0) *)
Definition corr1 (m : string) (d : drv) (i : nat) (fin : bool) : result :=
  match d_L d i with
  | None => raise d
  | Some l => if negb (i =? 0) && match d_R d i with None => true | Some _ => false end then raise d else
    let e := ev SCorr m d (Some l) in
    if fin then (with_d3 d i (d_ham d), [e], true) else (d, [e], false)
  end.
Fixpoint corr_loop (m : string) (d : drv) (states : list nat) (fin : nat -> bool) : result :=
  match states with
  | [] => (d, [], true)
  | i :: l => let '(d, es, b) := corr1 m d i (fin i) in
              if b then let '(d', es', b') := corr_loop m d l fin in (d', es ++ es', b') else (d, es, false)
  end%list.
(** [two_body_approx and self.L[0].order > 2]: None raises only if the flag is set *)
Definition strip (d : drv) (two_body : bool) : option drv :=
  if two_body then match d_L d 0 with None => None | Some l => Some (if 2 <? o_ord l then with_ham d (NoVT3 (d_ham d)) (d_flag d) (d_fock d) else d) end
  else Some d.
(** The state loop of "cct3", 2149-2165: strips inside the loop; without two_body_approx the ground state is skipped *)
Fixpoint cct3_loop (d : drv) (two_body : bool) (states : list nat) (fin : nat -> bool) : result :=
  match states with
  | [] => (d, [], true)
  | i :: l =>
    match strip d two_body with
    | None => raise d
    | Some d =>
      let '(d, es, b) := if (i =? 0) && negb two_body then (d, [], true) else corr1 "cct3" d i (fin i) in
      if b then let '(d', es', b') := cct3_loop d two_body l fin in (d', es ++ es', b') else (d, es, false)
    end
  end%list.
(** state_index: run_ccp3 takes a list for most methods and an integer for "ccp3" *)
Inductive index := One (i : nat) | Many (l : list nat).
(** run_ccp3, 2099-2263. crcc23 and crcc23_chol 2101-2130; ccsd(t) 2131-2135; cct3 2137-2165; ccp3 2190-2217; eomccsdta_star 2254-2263;
    any other name does nothing. cct3_chol and ccp3_chol (ground state only) are left out. *)
Definition run_ccp3 (d : drv) (m : string) (states : index) (two_body : bool) (num_active : nat) (fin : nat -> bool) : result :=
  if isin m ["crcc23"; "crcc23_chol"] then
    if negb (d_flag d) then raise d else match states with Many l => corr_loop m d l fin | One _ => raise d end
  else if isin m ["ccsd(t)"] then
    if d_flag d then raise d else
    match d_T d with None => raise d | Some t =>
      let e := ev SCorr m d (Some t) in if fin 0 then (with_d3 d 0 (d_ham d), [e], true) else (d, [e], false) end
  else if isin m ["cct3"] then
    if negb (d_flag d) then raise d else
    let d := if (1 <=? num_active) && (num_active <=? 3) then with_act d (Some num_active) else d in
    match states with Many l => cct3_loop d two_body l fin | One _ => raise d end
  else if isin m ["ccp3"] then
    if negb (d_flag d) then raise d else
    match strip d two_body with
    | None => raise d
    | Some d => match states with One i => corr1 m d i (fin i) | Many _ => raise d end      (* self.R[[...]] is a TypeError *)
    end
  else if isin m ["eomccsdta_star"] then
    if negb (d_flag d) then raise d else match states with Many l => corr_loop m d (filter (fun i => negb (i =? 0)) l) fin | One _ => raise d end
  else (d, [], true).

(** The interface *)
Inductive cmd :=
| CC (m : string) (fin : bool) | CCP (m : string) (sp fin : bool) | LR (m : string) (fin : bool) | Hb (m : string) (fin : bool)
| Guess (m : string) (mult : nat) (fin : bool)
| Eom (m : string) (l : list nat) (fin : nat -> bool) | EomP (m : string) (i : nat) (sp : bool) (fin : nat -> bool)
| EomMulti (m : string) (l : list nat) (sp : bool) (fin : nat -> bool) | Sf (m : string) (l : list nat) (fin : nat -> bool)
| Fock (m : string) (l : list nat) (fin : nat -> bool) | FockP (m : string) (l : list nat) (fin : nat -> bool)
| Left (m : string) (l : list nat) (fin : nat -> bool) | LeftP (m : string) (l : list nat) (fin : nat -> bool)
| LeftEom (m : string) (l : list nat) (fin : nat -> bool) | LeftEomP (m : string) (i : nat) (fin : nat -> bool)
| LeftFock (m : string) (l : list nat) (fin : nat -> bool) | LeftFockP (m : string) (i : nat) (fin : nat -> bool)
| CCP3 (m : string) (s : index) (two_body : bool) (num_active : nat) (fin : nat -> bool).
Definition call (d : drv) (c : cmd) : result :=
  match c with
  | CC m fin => run_cc d m fin | CCP m sp fin => run_ccp d m sp fin | LR m fin => run_lrcc d m fin | Hb m fin => run_hbar d m fin
  | Guess m mult fin => run_guess d m mult fin
  | Eom m l fin => run_eomcc d m l fin | EomP m i sp fin => run_eomccp d m i sp fin | EomMulti m l sp fin => run_eomcc_multiroot d m l sp fin
  | Sf m l fin => run_sfeomcc d m l fin | Fock m l fin => run_fock d m l fin | FockP m l fin => run_fock_p d m l fin
  | Left m l fin => run_leftcc d m l fin | LeftP m l fin => run_leftccp d m l fin | LeftEom m l fin => run_lefteomcc d m l fin
  | LeftEomP m i fin => run_lefteomccp d m i fin | LeftFock m l fin => run_leftfock d m l fin | LeftFockP m i fin => run_leftfock_p d m i fin
  | CCP3 m s tb na fin => run_ccp3 d m s tb na fin
  end.
(** A session: every call is made, whether or not the previous one raised *)
Fixpoint session (d : drv) (cs : list cmd) : drv * list event :=
  match cs with
  | [] => (d, [])
  | c :: cs => let '(d, es, _) := call d c in let (d, es') := session d cs in (d, es ++ es')
  end%list.
