(** Specification vocabulary: excitation operators on a reference determinant, their products and the exponential.
    An operator is given by its coefficients: X P H multiplies the determinant obtained from the reference by emptying the spin
    orbitals H and filling the spin orbitals P, in that order (the pairs a+_p a_h commute, so only the orders within P and
    within H matter).  Independent of the program's arrays and formulas. *)
From Coq Require Import Reals List Arith Factorial.
From Verif Require Import TensorObjs PspaceSpec ScatterModel ClusterModel.
Import ListNotations.
Open Scope R_scope.

Definition so := (spin * nat)%type.
Definition oper := list so -> list so -> R.

Definition rsum (l : list R) : R := fold_right Rplus 0 l.
(** All ways to divide a list in two, each with the sign of the reordering into first part ++ second part. *)
Fixpoint splits (l : list so) : list (R * list so * list so) :=
  match l with
  | [] => [(1, [], [])]
  | x :: l =>
      map (fun z => (fst (fst z), x :: snd (fst z), snd z)) (splits l) ++
      map (fun z => ((-1) ^ length (snd (fst z)) * fst (fst z), snd (fst z), x :: snd z)) (splits l)
  end.
(** Product of two excitation operators: the coefficient of a determinant collects all ways to share its particles and holes
    between the two factors. *)
Definition mul (X Y : oper) : oper := fun P H =>
  rsum (map (fun z => rsum (map (fun w => fst (fst z) * fst (fst w) * (X (snd (fst z)) (snd (fst w)) * Y (snd z) (snd w)))
                             (filter (fun w => Nat.eqb (length (snd (fst w))) (length (snd (fst z)))) (splits H))))
            (splits P)).
Definition one : oper := fun P H => match P, H with [], [] => 1 | _, _ => 0 end.
Fixpoint power (n : nat) (X : oper) : oper := match n with O => one | S n => mul X (power n X) end.
(** exp(T): the powers above the rank of the determinant do not contribute, since T has no rank-0 part. *)
Definition cexp (T : oper) : oper := fun P H =>
  rsum (map (fun n => power n T P H / INR (fact n)) (seq 0 (S (length P)))).

Definition count_spin (x : spin) (l : list so) : nat :=
  length (filter (fun z => match x, fst z with Alpha, Alpha => true | Beta, Beta => true | _, _ => false end) l).
(** A many-body operator that conserves spin: antisymmetric in its particles and in its holes. *)
Record antisymmetric_op (X : oper) : Prop := {
  op_particles : forall P x y P' H, X (P ++ x :: y :: P') H = - X (P ++ y :: x :: P') H;
  op_holes : forall P H x y H', X P (H ++ x :: y :: H') = - X P (H ++ y :: x :: H');
  op_spin : forall P H s, count_spin s P <> count_spin s H -> X P H = 0 }.
Record cluster_op (T : oper) : Prop := { cl_op : antisymmetric_op T; cl_zero : T [] [] = 0 }.
(** A wave function in intermediate normalisation. *)
Record normalised_wf (C : oper) : Prop := { wf_op : antisymmetric_op C; wf_one : C [] [] = 1 }.

(** The spin-integrated array of an operator: particles and holes carry the spins [sp]. *)
Definition block (sp : list spin) (X : oper) : tensor := fun l =>
  X (combine sp (firstn (length sp) l)) (combine sp (skipn (length sp) l)).
Definition agree (shape : list nat) (X Y : tensor) : Prop := forall l, in_bounds shape l = true -> X l = Y l.

(** The arrays handed to the program hold the coefficients of the wave function [W] through triples ... *)
Record ci_of (d : dims) (W : oper) (C : ci3) : Prop := {
  of_a : agree [nua d; noa d] (c_a C) (block [Alpha] W);
  of_b : agree [nub d; nob d] (c_b C) (block [Beta] W);
  of_aa : agree [nua d; nua d; noa d; noa d] (c_aa C) (block aa W);
  of_ab : agree [nua d; nub d; noa d; nob d] (c_ab C) (block ab W);
  of_bb : agree [nub d; nub d; nob d; nob d] (c_bb C) (block bb W);
  of_aaa : agree [nua d; nua d; nua d; noa d; noa d; noa d] (c_aaa C) (block aaa W);
  of_aab : agree [nua d; nua d; nub d; noa d; noa d; nob d] (c_aab C) (block aab W);
  of_abb : agree [nua d; nub d; nub d; noa d; nob d; nob d] (c_abb C) (block abb W);
  of_bbb : agree [nub d; nub d; nub d; nob d; nob d; nob d] (c_bbb C) (block bbb W) }.
(** ... and those of the listed quadruples (1-based rows, in range). *)
Definition aaaa := [Alpha; Alpha; Alpha; Alpha]. Definition aaab := [Alpha; Alpha; Alpha; Beta].
Definition aabb := [Alpha; Alpha; Beta; Beta]. Definition abbb4 := [Alpha; Beta; Beta; Beta]. Definition bbbb := [Beta; Beta; Beta; Beta].
Definition osize (d : dims) (s : spin) : nat := match s with Alpha => noa d | Beta => nob d end.
Definition usize (d : dims) (s : spin) : nat := match s with Alpha => nua d | Beta => nub d end.
Definition row_in_range (d : dims) (sp : list spin) (row : list nat) : Prop :=
  (forall x, In x row -> (1 <= x)%nat) /\ in_bounds (map (usize d) sp ++ map (osize d) sp) (map pred row) = true.
Definition quads_case (d : dims) (sp : list spin) (W : oper) (q : list (list nat) * list R) : Prop :=
  (forall row, In row (fst q) -> row_in_range d sp row) /\ snd q = map (fun row => block sp W (map pred row)) (fst q).
Record quads_of (d : dims) (W : oper) (Q : quads) : Prop := {
  of_aaaa : quads_case d aaaa W (q_aaaa Q); of_aaab : quads_case d aaab W (q_aaab Q); of_aabb : quads_case d aabb W (q_aabb Q);
  of_abbb : quads_case d abbb4 W (q_abbb Q); of_bbbb : quads_case d bbbb W (q_bbbb Q) }.

(** A cluster amplitude is kept where the CI coefficient of the same determinant is not zero. *)
Definition where_nonzero (c t : tensor) : tensor := fun l => if Req_EM_T (c l) 0 then 0 else t l.
(** The result: singles, and doubles and triples at the determinants present in the wave function ... *)
Record amplitudes_of (d : dims) (T : oper) (C X : ci3) : Prop := {
  am_a : agree [nua d; noa d] (c_a X) (block [Alpha] T);
  am_b : agree [nub d; nob d] (c_b X) (block [Beta] T);
  am_aa : agree [nua d; nua d; noa d; noa d] (c_aa X) (where_nonzero (c_aa C) (block aa T));
  am_ab : agree [nua d; nub d; noa d; nob d] (c_ab X) (where_nonzero (c_ab C) (block ab T));
  am_bb : agree [nub d; nub d; nob d; nob d] (c_bb X) (where_nonzero (c_bb C) (block bb T));
  am_aaa : agree [nua d; nua d; nua d; noa d; noa d; noa d] (c_aaa X) (where_nonzero (c_aaa C) (block aaa T));
  am_aab : agree [nua d; nua d; nub d; noa d; noa d; nob d] (c_aab X) (where_nonzero (c_aab C) (block aab T));
  am_abb : agree [nua d; nub d; nub d; noa d; nob d; nob d] (c_abb X) (where_nonzero (c_abb C) (block abb T));
  am_bbb : agree [nub d; nub d; nub d; nob d; nob d; nob d] (c_bbb X) (where_nonzero (c_bbb C) (block bbb T)) }.
(** ... and the quadruples of the list. *)
Definition at_rows (sp : list spin) (T : oper) (q : list (list nat) * list R) : list R := map (fun row => block sp T (map pred row)) (fst q).
Record quadruples_of (T : oper) (Q : quads) (q : t4s) : Prop := {
  am_aaaa : r_aaaa q = at_rows aaaa T (q_aaaa Q); am_aaab : r_aaab q = at_rows aaab T (q_aaab Q); am_aabb : r_aabb q = at_rows aabb T (q_aabb Q);
  am_abbb : r_abbb q = at_rows abbb4 T (q_abbb Q); am_bbbb : r_bbbb q = at_rows bbbb T (q_bbbb Q) }.
(** No doubles amplitude belongs to a determinant missing from the wave function. *)
Definition doubles_present (d : dims) (T : oper) (C : ci3) : Prop :=
  agree [nua d; nua d; noa d; noa d] (where_nonzero (c_aa C) (block aa T)) (block aa T) /\
  agree [nua d; nub d; noa d; nob d] (where_nonzero (c_ab C) (block ab T)) (block ab T) /\
  agree [nub d; nub d; nob d; nob d] (where_nonzero (c_bb C) (block bb T)) (block bb T).
(** The arrays of a wave function. *)
Definition arrays (W : oper) : ci3 :=
  mkCi (block [Alpha] W) (block [Beta] W) (block aa W) (block ab W) (block bb W) (block aaa W) (block aab W) (block abb W) (block bbb W).
