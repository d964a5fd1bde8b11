(** Spin-flip EOMCC with three-body operators: the singles and doubles parts of the sigma vector of the program are those of the Schroedinger equation, the triples
    parts are not; with the eleven terms of SpinFlip3Fixed.v changed they are (C78). *)
From Coq Require Import Reals Arith NArith List Bool Lia Lra QArith Qreals FunctionalExtensionality.
From Verif Require Import RSum IntegralsModel TensorObjs TensorAlg TensorSpec CcsdModel CcsdUpdate IntsFix CcsdReify CcsdProps FockSpec FockCar FockWick FockArrays FockTerms FockCcSpec FockExp FockLevel FockState FockNear FockProj FockProps FockSector FockSectorSpec FockSectorTools SectorProps
  RankSpec FockCount FockDress FockShift Sector3Model Sector3Spec FockSpaces3 FockCheck SpinFlip3Fixed SectorSfxReify SectorSfxFock HbarSpec HbarBlocks Sector3Skel SectorSfxSkel QEval Sector3Cases Sector3Props.
Import ListNotations.
Local Open Scope R_scope.

Lemma sft_op_linear d Y : linear (sft_op d Y).
Proof. replace (sft_op d Y) with (psem (noa d) (nob d) (fdim d) (tenv (fock_arrays (fock_ints (noa d) (nob d) zero_integrals) (bare zero_amps) ++ [ap2 (sft_b Y); ap4 (sft_ab Y); ap4 (sft_bb Y); ap6 (sft_aab Y); ap6 (sft_abb Y); ap6 (sft_bbb Y)])) sft_rts (venv [])) by (apply functional_extensionality; intros phi; apply (sft_op_ok d zero_integrals zero_amps Y)). apply psem_linear. Qed.
Lemma sft_op_commute d Y T : commute (sft_op d Y) (ones d T).
Proof.
  replace (sft_op d Y) with (psem (noa d) (nob d) (fdim d) (tenv (fock_arrays (fock_ints (noa d) (nob d) zero_integrals) (bare zero_amps) ++ [ap2 (sft_b Y); ap4 (sft_ab Y); ap4 (sft_bb Y); ap6 (sft_aab Y); ap6 (sft_abb Y); ap6 (sft_bbb Y)])) sft_rts (venv [])) by (apply functional_extensionality; intros phi; apply (sft_op_ok d zero_integrals zero_amps Y)).
  apply psem_commute; [reflexivity|reflexivity|vm_compute; reflexivity|apply ones_exc].
Qed.
(** The singles and doubles parts are those of the corrected program, for every input *)
Theorem C78_doubles d H T Y : sft_b (sft_HR d H T Y) = sft_b (sfx_HR d H T Y) /\ sft_ab (sft_HR d H T Y) = sft_ab (sfx_HR d H T Y) /\ sft_bb (sft_HR d H T Y) = sft_bb (sfx_HR d H T Y).
Proof. repeat split; reflexivity. Qed.
(** Roots of the corrected program are solutions of the Schroedinger equation on the determinants of the method, with total energy E + w *)
Theorem C78_corrected d I T Y n m w : shape d n -> exchangeable I -> antisym_amps T -> sft_anti Y -> (noa d + nob d + 4 <= m)%nat ->
  let H := fock_ints (noa d) (nob d) I in
  let E := scf_energy (noa d) (nob d) I + cc_energy d H T in
  same_amps d (ccsd_resid d H T) zero_amps ->
  (sft_root d (sfx_HR d (hbar_ccsd d H T) T Y) Y w <-> solves_on (sft_space d n) n I (E + w) (sft_op d Y (cc_state d T m))).
Proof.
  intros HS HI HT HY Hm H E HR.
  apply (through d I T n m (sft_op d Y) (sft_space d n) w E _ (sft_root d (sfx_HR d (hbar_ccsd d (fock_ints (noa d) (nob d) (dressed d T I)) (bare T)) (bare T) Y) Y w)); try assumption.
  - destruct HS as (E1 & E2). now apply sector_downward.
  - apply sft_op_linear.
  - apply sft_op_commute.
  - reflexivity.
  - apply sfx_root_same; [now apply hbar_agree|reflexivity..].
  - intros K. destruct HS as (E1 & E2). apply (sft_solves d (dressed d T I) T Y n m E1 E2); [now apply dressed_exch|exact HT|exact HY|lia|exact K].
Qed.
(** The sigma vector of the program is antisymmetric all the same *)
Theorem C78_antisym d H T Y : sft_anti (sft_HR d H T Y).
Proof. unfold sft_anti. repeat match goal with |- _ /\ _ => split end; intros; cbn [sft_HR sft_b sft_ab sft_bb sft_aab sft_abb sft_bbb]; unfold sftr_x2b_20, sftr_x2c_20, sftr_x3b_17, sftr_x3b_16, sftr_x3b_15, sftr_x3c_27, sftr_x3c_26, sftr_x3d_17, sftr_x3d_16, sftr_x3d_15; ring. Qed.

(** * The program: electrons that repel only between orbitals 0 and 4.  Moving the alpha electrons of orbitals 0, 1, 2 to alpha 3, alpha 4 and beta 4 adds the pairs
    beta 0, beta 4 and beta 0, alpha 4: w = 2.  The program gives 7/3. *)
Local Open Scope Q_scope.
Definition e_pair (p q r s : nat) : Q := if (p =? r)%nat && (q =? s)%nat && ((p =? 0)%nat && (q =? 4)%nat || (p =? 4)%nat && (q =? 0)%nat) then 1 else 0.
Definition q_pair : qints := mkQ (fun _ _ => 0) (fun _ _ => 0) e_pair e_pair e_pair.
Definition t_none : qamps := mkQa (fun _ _ => 0) (fun _ _ => 0) (fun _ _ _ _ => 0) (fun _ _ _ _ => 0) (fun _ _ _ _ => 0).
Definition qn (k : nat) : Q := inject_Z (Z.of_nat k).
Definition y_flip (a b c i j k : nat) : Q := (qn b - qn a) * ((qn j - qn i) * (qn k - qn i) * (qn k - qn j) * (1 # 2)).
Definition d_flip := mkDims 3 2 4 1.
Definition I_pair := real q_pair. Definition T_none := reala t_none.
Definition Y_flip := sft_real (fun _ _ => 0) (fun _ _ _ _ => 0) (fun _ _ _ _ => 0) y_flip no6 no6.
Local Close Scope Q_scope.
Local Open Scope Q_scope.
Definition sfx_check (d : dims) (I : qints) (T : qamps) (y_b : nat -> nat -> Q) (y_ab : nat -> nat -> nat -> nat -> Q) (y_bb : nat -> nat -> nat -> nat -> Q) (y_aab : nat -> nat -> nat -> nat -> nat -> nat -> Q) (y_abb : nat -> nat -> nat -> nat -> nat -> nat -> Q) (y_bbb : nat -> nat -> nat -> nat -> nat -> nat -> Q) (w : Q) : bool :=
  let ok e l y := Qeq_bool (denq (fdim d) (qenv (qarrays (noa d) (nob d) I T ++ [qp2 y_b; qp4 y_ab; qp4 y_bb; qp6 y_aab; qp6 y_abb; qp6 y_bbb])) (retag (to_sector 6) e) (venv l)) (w * y) in
  all (nub d) (fun p => all (noa d) (fun q => ok (s_sfx_b 10 0 1)%nat [p; q] (y_b p q)))
  && all (nua d) (fun p => all (nub d) (fun q => all (noa d) (fun r => all (noa d) (fun s => ok (s_sfx_ab 10 0 1 2 3)%nat [p; q; r; s] (y_ab p q r s)))))
  && all (nub d) (fun p => all (nub d) (fun q => all (nob d) (fun r => all (noa d) (fun s => ok (s_sfx_bb 10 0 1 2 3)%nat [p; q; r; s] (y_bb p q r s)))))
  && all (nua d) (fun p => all (nua d) (fun q => all (nub d) (fun r => all (noa d) (fun s => all (noa d) (fun t => all (noa d) (fun u => ok (s_sfx_aab 10 0 1 2 3 4 5)%nat [p; q; r; s; t; u] (y_aab p q r s t u)))))))
  && all (nua d) (fun p => all (nub d) (fun q => all (nub d) (fun r => all (noa d) (fun s => all (nob d) (fun t => all (noa d) (fun u => ok (s_sfx_abb 10 0 1 2 3 4 5)%nat [p; q; r; s; t; u] (y_abb p q r s t u)))))))
  && all (nub d) (fun p => all (nub d) (fun q => all (nub d) (fun r => all (nob d) (fun s => all (nob d) (fun t => all (noa d) (fun u => ok (s_sfx_bbb 10 0 1 2 3 4 5)%nat [p; q; r; s; t; u] (y_bbb p q r s t u))))))).
Lemma sfx_case d I T y_b y_ab y_bb y_aab y_abb y_bbb w : sfx_check d I T y_b y_ab y_bb y_aab y_abb y_bbb w = true -> let H := fock_ints (noa d) (nob d) (real I) in let Y := sft_real y_b y_ab y_bb y_aab y_abb y_bbb in sft_root d (sfx_HR d (hbar_ccsd d H (reala T)) (reala T) Y) Y (Q2R w).
Proof.
  unfold sfx_check. cbv zeta. rewrite !andb_true_iff. intros (((((K0 & K1) & K2) & K3) & K4) & K5).
  assert (HV : forall e v, den (fdim d) (tenv (jac_arrays d (fock_ints (noa d) (nob d) (real I)) (reala T) (reala T) ++ [ap2 (sft_b (sft_real y_b y_ab y_bb y_aab y_abb y_bbb)); ap4 (sft_ab (sft_real y_b y_ab y_bb y_aab y_abb y_bbb)); ap4 (sft_bb (sft_real y_b y_ab y_bb y_aab y_abb y_bbb)); ap6 (sft_aab (sft_real y_b y_ab y_bb y_aab y_abb y_bbb)); ap6 (sft_abb (sft_real y_b y_ab y_bb y_aab y_abb y_bbb)); ap6 (sft_bbb (sft_real y_b y_ab y_bb y_aab y_abb y_bbb))])) e v = Q2R (denq (fdim d) (qenv (qarrays (noa d) (nob d) I T ++ [qp2 y_b; qp4 y_ab; qp4 y_bb; qp6 y_aab; qp6 y_abb; qp6 y_bbb])) (retag (to_sector 6) e) v)).
  { intros e v. refine (qvalue d I T [ap2 (sft_b (sft_real y_b y_ab y_bb y_aab y_abb y_bbb)); ap4 (sft_ab (sft_real y_b y_ab y_bb y_aab y_abb y_bbb)); ap4 (sft_bb (sft_real y_b y_ab y_bb y_aab y_abb y_bbb)); ap6 (sft_aab (sft_real y_b y_ab y_bb y_aab y_abb y_bbb)); ap6 (sft_abb (sft_real y_b y_ab y_bb y_aab y_abb y_bbb)); ap6 (sft_bbb (sft_real y_b y_ab y_bb y_aab y_abb y_bbb))] [qp2 y_b; qp4 y_ab; qp4 y_bb; qp6 y_aab; qp6 y_abb; qp6 y_bbb] e v _ _); [|cbn [length]; lia]. repeat (apply Forall2_cons; [intros; cbn [sft_real sft_b sft_ab sft_bb sft_aab sft_abb sft_bbb]; first [apply qp1_ok|apply qp2_ok'|apply qp3_ok|apply qp4_ok'|apply qp5_ok|apply qp6_ok]|]). apply Forall2_nil. }
  unfold sft_root. repeat match goal with |- _ /\ _ => split end.
  - intros p q Hp Hq. apply all_ok with (k := p) in K0; [|exact Hp]. apply all_ok with (k := q) in K0; [|exact Hq]. apply Qeq_bool_eq in K0. etransitivity; [|etransitivity; [exact (Qeq_eqR _ _ K0)|apply Q2R_mult]]. rewrite <- HV. reflexivity.
  - intros p q r s Hp Hq Hr Hs. apply all_ok with (k := p) in K1; [|exact Hp]. apply all_ok with (k := q) in K1; [|exact Hq]. apply all_ok with (k := r) in K1; [|exact Hr]. apply all_ok with (k := s) in K1; [|exact Hs]. apply Qeq_bool_eq in K1. etransitivity; [|etransitivity; [exact (Qeq_eqR _ _ K1)|apply Q2R_mult]]. rewrite <- HV. reflexivity.
  - intros p q r s Hp Hq Hr Hs. apply all_ok with (k := p) in K2; [|exact Hp]. apply all_ok with (k := q) in K2; [|exact Hq]. apply all_ok with (k := r) in K2; [|exact Hr]. apply all_ok with (k := s) in K2; [|exact Hs]. apply Qeq_bool_eq in K2. etransitivity; [|etransitivity; [exact (Qeq_eqR _ _ K2)|apply Q2R_mult]]. rewrite <- HV. reflexivity.
  - intros p q r s t u Hp Hq Hr Hs Ht Hu. apply all_ok with (k := p) in K3; [|exact Hp]. apply all_ok with (k := q) in K3; [|exact Hq]. apply all_ok with (k := r) in K3; [|exact Hr]. apply all_ok with (k := s) in K3; [|exact Hs]. apply all_ok with (k := t) in K3; [|exact Ht]. apply all_ok with (k := u) in K3; [|exact Hu]. apply Qeq_bool_eq in K3. etransitivity; [|etransitivity; [exact (Qeq_eqR _ _ K3)|apply Q2R_mult]]. rewrite <- HV. reflexivity.
  - intros p q r s t u Hp Hq Hr Hs Ht Hu. apply all_ok with (k := p) in K4; [|exact Hp]. apply all_ok with (k := q) in K4; [|exact Hq]. apply all_ok with (k := r) in K4; [|exact Hr]. apply all_ok with (k := s) in K4; [|exact Hs]. apply all_ok with (k := t) in K4; [|exact Ht]. apply all_ok with (k := u) in K4; [|exact Hu]. apply Qeq_bool_eq in K4. etransitivity; [|etransitivity; [exact (Qeq_eqR _ _ K4)|apply Q2R_mult]]. rewrite <- HV. reflexivity.
  - intros p q r s t u Hp Hq Hr Hs Ht Hu. apply all_ok with (k := p) in K5; [|exact Hp]. apply all_ok with (k := q) in K5; [|exact Hq]. apply all_ok with (k := r) in K5; [|exact Hr]. apply all_ok with (k := s) in K5; [|exact Hs]. apply all_ok with (k := t) in K5; [|exact Ht]. apply all_ok with (k := u) in K5; [|exact Hu]. apply Qeq_bool_eq in K5. etransitivity; [|etransitivity; [exact (Qeq_eqR _ _ K5)|apply Q2R_mult]]. rewrite <- HV. reflexivity.
Qed.
Local Close Scope Q_scope.
Lemma flip_ok : shape d_flip 5 /\ exchangeable I_pair /\ antisym_amps T_none /\ same_amps d_flip (ccsd_resid d_flip (fock_ints 3 4 I_pair) T_none) zero_amps.
Proof.
  split; [now split|]. split; [split; intros p q r s; cbn [I_pair q_pair real w_aa w_bb q_aa q_bb]; unfold e_pair; destruct (p =? r)%nat, (q =? s)%nat, (p =? 0)%nat, (q =? 4)%nat, (p =? 4)%nat, (q =? 0)%nat; reflexivity|].
  split; [constructor; intros; cbn [T_none reala x_aa x_ab x_bb x_aaa x_aab x_abb x_bbb t_none qt_aa qt_bb]; rewrite ?q0; ring|].
  apply (qres_ok d_flip q_pair t_none). vm_compute. reflexivity.
Qed.
Lemma flip_anti : sft_anti Y_flip.
Proof. unfold sft_anti. repeat match goal with |- _ /\ _ => split end; intros; cbn [Y_flip sft_real sft_b sft_ab sft_bb sft_aab sft_abb sft_bbb]; rewrite <- Q2R_opp; apply Qeq_eqR; unfold no6, y_flip; ring. Qed.
Lemma flip_code : sft_root d_flip (sft_HR d_flip (hbar_ccsd d_flip (fock_ints 3 4 I_pair) T_none) T_none Y_flip) Y_flip (7 / 3).
Proof. replace (7 / 3) with (Q2R (7 # 3)) by (unfold Q2R; cbn; lra). apply (sft_case d_flip q_pair t_none). vm_compute. reflexivity. Qed.
Lemma flip_right : sft_root d_flip (sfx_HR d_flip (hbar_ccsd d_flip (fock_ints 3 4 I_pair) T_none) T_none Y_flip) Y_flip 2.
Proof. replace 2 with (Q2R 2) by (unfold Q2R; cbn; lra). apply (sfx_case d_flip q_pair t_none). vm_compute. reflexivity. Qed.
Example C78_instance : shape d_flip 5 /\ exchangeable I_pair /\ antisym_amps T_none /\ same_amps d_flip (ccsd_resid d_flip (fock_ints 3 4 I_pair) T_none) zero_amps /\ sft_anti Y_flip /\
  sft_aab Y_flip 0%nat 1%nat 0%nat 0%nat 1%nat 2%nat = 1 /\ sft_root d_flip (sfx_HR d_flip (hbar_ccsd d_flip (fock_ints 3 4 I_pair) T_none) T_none Y_flip) Y_flip 2.
Proof. destruct flip_ok as (A & B & C & D). split; [exact A|]. split; [exact B|]. split; [exact C|]. split; [exact D|]. split; [exact flip_anti|]. split; [unfold Y_flip; cbn; unfold Q2R; cbn; lra|exact flip_right]. Qed.
(** A root of the program that is not a solution, with the same integrals for both spins, a converged ground state and a non-zero vector; and the same vector solves the equation with another energy *)
Theorem C78_refuted : exists d I T Y n m w w', shape d n /\ exchangeable I /\ antisym_amps T /\ sft_anti Y /\ (noa d + nob d + 4 <= m)%nat /\
  h_a I = h_b I /\ w_aa I = w_ab I /\ w_bb I = w_ab I /\ sft_aab Y 0%nat 1%nat 0%nat 0%nat 1%nat 2%nat = 1 /\
  let H := fock_ints (noa d) (nob d) I in
  let E := scf_energy (noa d) (nob d) I + cc_energy d H T in
  same_amps d (ccsd_resid d H T) zero_amps /\ sft_root d (sft_HR d (hbar_ccsd d H T) T Y) Y w /\
  ~ solves_on (sft_space d n) n I (E + w) (sft_op d Y (cc_state d T m)) /\ solves_on (sft_space d n) n I (E + w') (sft_op d Y (cc_state d T m)).
Proof.
  destruct flip_ok as (A & B & C & D). exists d_flip, I_pair, T_none, Y_flip, 5%nat, 11%nat, (7 / 3), 2.
  assert (Y1 : sft_aab Y_flip 0%nat 1%nat 0%nat 0%nat 1%nat 2%nat = 1) by (unfold Y_flip; cbn; unfold Q2R; cbn; lra).
  assert (L := fun w => C78_corrected d_flip I_pair T_none Y_flip 5 11 w A B C flip_anti (le_n 11) D).
  split; [exact A|]. split; [exact B|]. split; [exact C|]. split; [exact flip_anti|]. split; [cbn; lia|]. split; [reflexivity|]. split; [reflexivity|]. split; [reflexivity|]. split; [exact Y1|].
  cbv zeta. split; [exact D|]. split; [exact flip_code|]. split; [|apply (proj1 (L 2)); exact flip_right].
  intros S. apply (proj2 (L (7 / 3))) in S. destruct S as (_ & _ & _ & S & _). destruct flip_right as (_ & _ & _ & G & _).
  specialize (S 0%nat 1%nat 0%nat 0%nat 1%nat 2%nat). specialize (G 0%nat 1%nat 0%nat 0%nat 1%nat 2%nat). rewrite Y1 in S, G. assert (Z1 := eq_trans (eq_sym (G (ltac:(cbn; lia)) (ltac:(cbn; lia)) (ltac:(cbn; lia)) (ltac:(cbn; lia)) (ltac:(cbn; lia)) (ltac:(cbn; lia)))) (S (ltac:(cbn; lia)) (ltac:(cbn; lia)) (ltac:(cbn; lia)) (ltac:(cbn; lia)) (ltac:(cbn; lia)) (ltac:(cbn; lia)))). lra.
Qed.

Print Assumptions C78_doubles.
Print Assumptions C78_corrected.
Print Assumptions C78_antisym.
Print Assumptions C78_refuted.
