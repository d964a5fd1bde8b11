
(** * Cases: independent electrons.  One unoccupied (occupied) orbital does not mix; in the other pair h = ((0, 2), (2, 3)), T1 = -1/2, eigenvalues -1 and 4.
    Attaching: two holes in orbitals of energy -1, particles of energies 4, 5, 4 (and 5), so w = 15 (20); removing likewise with an occupied orbital of energy -5. *)
Local Open Scope Q_scope.
Definition h_attach (p q : nat) : Q := match p, q with O, S O | S O, O => 2 | S O, S O => 3 | S (S O), S (S O) => 5 | _, _ => 0 end.
Definition h_remove (p q : nat) : Q := match p, q with S (S O), S O | S O, S (S O) => 2 | S (S O), S (S O) => 3 | O, O => -5 | _, _ => 0 end.
Definition one_body (h : nat -> nat -> Q) : qints := mkQ h h (fun _ _ _ _ => 0) (fun _ _ _ _ => 0) (fun _ _ _ _ => 0).
Definition t_one (k : nat) : qamps := let t a i := if (Nat.eqb a 0 && Nat.eqb i k)%bool then -1 # 2 else 0 in mkQa t t (fun _ _ _ _ => 0) (fun _ _ _ _ => 0) (fun _ _ _ _ => 0).
Definition anti2 (a b : nat) : Q := match a, b with O, S O => 1 | S O, O => -1 | _, _ => 0 end.
Definition isq (k a : nat) : Q := if Nat.eqb k a then 1 else 0.
Definition no5 (_ _ _ _ _ : nat) : Q := 0. Definition no6 (_ _ _ _ _ _ : nat) : Q := 0.
Definition d_attach := mkDims 1 2 1 2. Definition d_remove := mkDims 2 1 2 1.
Definition I_attach := real (one_body h_attach). Definition I_remove := real (one_body h_remove).
Definition T_attach := reala (t_one 0). Definition T_remove := reala (t_one 1).
Definition y_ipt := ipt_real (fun i => (4 # 25) * isq 0 i) (fun i a j => (2 # 5) * anti2 i j) (fun i a j => (2 # 5) * isq 0 i * isq 1 j) no5 (fun i a b j k => anti2 i j * isq 1 k) no5.
Definition y_eat := eat_real (fun a => (-4 # 25) * isq 1 a) (fun a b i => (2 # 5) * anti2 a b) (fun a b i => (-2 # 5) * isq 1 a * isq 0 b) no5 (fun a b c i j => anti2 a b * isq 0 c) no5.
Definition y_dipq := dipq_real (fun i j => (4 # 25) * isq 0 i * isq 0 j) (fun i j a k => (2 # 5) * anti2 i k * isq 0 j) (fun i j a k => (2 # 5) * isq 0 i * anti2 j k) no6 (fun i j a b k l => anti2 i k * anti2 j l) no6.
Definition y_deaq := deaq_real (fun a b => (4 # 25) * isq 1 a * isq 1 b) (fun a b c k => (-2 # 5) * anti2 a c * isq 1 b) (fun a b c k => (-2 # 5) * isq 1 a * anti2 b c) no6 (fun a b c e k l => anti2 a c * anti2 b e) no6.
Local Close Scope Q_scope.
Lemma anti2_ok a b : (anti2 a b == - anti2 b a)%Q. Proof. destruct a as [|[|a]], b as [|[|b]]; reflexivity. Qed.
Lemma attach_ok : shape d_attach 3 /\ exchangeable I_attach /\ antisym_amps T_attach /\ same_amps d_attach (ccsd_resid d_attach (fock_ints 1 1 I_attach) T_attach) zero_amps.
Proof.
  split; [now split|]. split; [split; reflexivity|]. split; [constructor; intros; cbn [T_attach reala x_aa x_ab x_bb x_aaa x_aab x_abb x_bbb t_one qt_aa qt_bb]; rewrite ?q0; ring|].
  apply (qres_ok d_attach (one_body h_attach) (t_one 0)). vm_compute. reflexivity.
Qed.
Lemma remove_ok : shape d_remove 3 /\ exchangeable I_remove /\ antisym_amps T_remove /\ same_amps d_remove (ccsd_resid d_remove (fock_ints 2 2 I_remove) T_remove) zero_amps.
Proof.
  split; [now split|]. split; [split; reflexivity|]. split; [constructor; intros; cbn [T_remove reala x_aa x_ab x_bb x_aaa x_aab x_abb x_bbb t_one qt_aa qt_bb]; rewrite ?q0; ring|].
  apply (qres_ok d_remove (one_body h_remove) (t_one 1)). vm_compute. reflexivity.
Qed.
Ltac qanti := repeat match goal with |- _ /\ _ => split end; intros; cbn; rewrite <- Q2R_opp; apply Qeq_eqR; unfold no5, no6;
  repeat match goal with |- context [anti2 ?a ?b] => lazymatch goal with |- context [anti2 b a] => rewrite (anti2_ok a b); let x := fresh "x" in generalize (anti2 b a); intros x end end; ring.
Example C74_instance : ipt_anti y_ipt /\ ipt_aab y_ipt 0%nat 0%nat 0%nat 1%nat 1%nat = 1 /\
  ipt_root d_remove (ipt_HR d_remove (hbar_ccsd d_remove (fock_ints 2 2 I_remove) T_remove) T_remove y_ipt) y_ipt 15.
Proof.
  split; [unfold ipt_anti; qanti|]. split; [cbn; unfold Q2R; cbn; lra|]. replace 15 with (Q2R 15) by (unfold Q2R; cbn; lra). apply (ipt_case d_remove (one_body h_remove) (t_one 1)). vm_compute. reflexivity.
Qed.
Example C75_instance : eat_anti y_eat /\ eat_aab y_eat 0%nat 1%nat 0%nat 0%nat 0%nat = 1 /\
  eat_root d_attach (eat_HR d_attach (hbar_ccsd d_attach (fock_ints 1 1 I_attach) T_attach) T_attach y_eat) y_eat 15.
Proof.
  split; [unfold eat_anti; qanti|]. split; [cbn; unfold Q2R; cbn; lra|]. replace 15 with (Q2R 15) by (unfold Q2R; cbn; lra). apply (eat_case d_attach (one_body h_attach) (t_one 0)). vm_compute. reflexivity.
Qed.
Example C76_instance : dipq_anti y_dipq /\ dipq_abab y_dipq 0%nat 0%nat 0%nat 0%nat 1%nat 1%nat = 1 /\
  dipq_root d_remove (dipq_HR d_remove (hbar_ccsd d_remove (fock_ints 2 2 I_remove) T_remove) T_remove y_dipq) y_dipq 20.
Proof.
  split; [unfold dipq_anti; qanti|]. split; [cbn; unfold Q2R; cbn; lra|]. replace 20 with (Q2R 20) by (unfold Q2R; cbn; lra). apply (dipq_case d_remove (one_body h_remove) (t_one 1)). vm_compute. reflexivity.
Qed.
Example C77_instance : deaq_anti y_deaq /\ deaq_abab y_deaq 0%nat 0%nat 1%nat 1%nat 0%nat 0%nat = 1 /\
  deaq_root d_attach (deaq_HR d_attach (hbar_ccsd d_attach (fock_ints 1 1 I_attach) T_attach) T_attach y_deaq) y_deaq 20.
Proof.
  split; [unfold deaq_anti; qanti|]. split; [cbn; unfold Q2R; cbn; lra|]. replace 20 with (Q2R 20) by (unfold Q2R; cbn; lra). apply (deaq_case d_attach (one_body h_attach) (t_one 0)). vm_compute. reflexivity.
Qed.
(** C73: the singles are not zero and the dressed integrals differ from the bare ones: h~(0, 0) = h(0, 0) + h(0, 1) t = -1 *)
Example C73_instance : shape d_attach 3 /\ exchangeable I_attach /\ antisym_amps T_attach /\ h_a I_attach 0%nat 0%nat = 0 /\ h_a (dressed d_attach T_attach I_attach) 0%nat 0%nat = -1.
Proof.
  destruct attach_ok as (A & B & C & _). split; [exact A|]. split; [exact B|]. split; [exact C|]. split; [cbn; apply q0|value].
Qed.

Print Assumptions C73_dressed.
Print Assumptions C73_hbar.
Print Assumptions C73_energy.
Print Assumptions C73_residual.
Print Assumptions C74_schroedinger.
Print Assumptions C74_antisym.
Print Assumptions C74_chain.
Print Assumptions C75_schroedinger.
Print Assumptions C75_antisym.
Print Assumptions C75_chain.
Print Assumptions C76_schroedinger.
Print Assumptions C76_antisym.
Print Assumptions C76_chain.
Print Assumptions C77_schroedinger.
Print Assumptions C77_antisym.
Print Assumptions C77_chain.
