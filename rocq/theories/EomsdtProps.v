(** C85: EOMCCSDT (eomccsdt.py, hbar_ccsdt.py) against second quantisation. *)
From Coq Require Import Reals Arith NArith List Bool Lia Lra QArith Qreals ZArith.
From Verif Require Import RSum IntegralsModel IntegralsSpec TensorObjs TensorAlg TensorSpec EomModel CcsdModel CcsdUpdate LeftModel CcsdProps FockSpec FockArrays FockCcSpec FockProps FockProj FockSector FockSector3 FockSectorSpec RankSpec QEval FockTerms
  CcsdtModel CcsdtUpdate CcsdtProps SdtSpec EomsdtModel EomsdtSpec EomsdtReify EomsdtProofs EomsdtFock.
Import ListNotations.
Local Open Scope R_scope.

(** The vector HR returns is the derivative of the CCSDT equations along R *)
Theorem C85_jacobian d H T R : antisym_ints H -> antisym_amps T -> antisym_amps R -> triples_anti T -> triples_anti R ->
  jacobian3 (fun t => ccsdt_resid d H (amps_line T R t)) (eomt_HR d (hbar_ccsdt d H T) T R).
Proof. apply jac3. Qed.

(** The sum in get_r0, with the dressed integrals of hbar_ccsdt.py, is the derivative of the correlation energy along R *)
Theorem C85_energy_gradient d H T R : antisym_ints H -> antisym_amps T -> antisym_amps R ->
  derivable_pt_lim (fun t => cc_energy d H (amps_line T R t)) 0 (r0_sum d (hbar_ccsdt d H T) R).
Proof. intros. rewrite r0_hbar. now apply C62_energy_gradient. Qed.

(** HR returns an antisymmetric vector, whatever it is given *)
Theorem C85_antisymmetric d H T R : antisym_amps (eomt_HR d H T R) /\ triples_anti (eomt_HR d H T R).
Proof. split; [apply eomt_anti_d|apply eomt_anti_t]. Qed.

(** When the CCSDT equations hold: HR R = w R and the weight r0 of the reference satisfies the equation of get_r0 exactly when (r0 + R) exp(T1 + T2 + T3) |ref>
    solves the Schroedinger equation with energy E + w on all determinants with up to three excited electrons *)
Theorem C85_eigenvector d I T R n m r0 w : shape d n -> exchangeable I -> antisym_amps T -> triples_anti T -> antisym_amps R -> triples_anti R -> (noa d + nob d + 4 <= m)%nat ->
  let H := fock_ints (noa d) (nob d) I in
  let psi := sdt_state d T m in
  same_amps3 d (ccsdt_resid d H T) zero_amps ->
  (solves_on (sdt_space d n) n I (scf_energy (noa d) (nob d) I + cc_energy d H T + w) (fun D => r0 * psi D + cluster_sdt d R psi D) <->
   same_amps3 d (eomt_HR d (hbar_ccsdt d H T) T R) (scale3 w R) /\ r0_sum d (hbar_ccsdt d H T) R = w * r0).
Proof.
  intros Hd HI HT HT3 HY HY3 Hm H psi HR. apply (eomt_solves d I T R n m (proj1 Hd) (proj2 Hd) HI HT HT3 HY HY3 Hm HR r0 w). now apply ref_in_space.
Qed.

(** With the value get_r0 returns, an eigenvector of HR with nonzero eigenvalue gives such a state *)
Theorem C85_state d I T R n m w : shape d n -> exchangeable I -> antisym_amps T -> triples_anti T -> antisym_amps R -> triples_anti R -> (noa d + nob d + 4 <= m)%nat -> w <> 0 ->
  let H := fock_ints (noa d) (nob d) I in
  let psi := sdt_state d T m in
  same_amps3 d (ccsdt_resid d H T) zero_amps ->
  (solves_on (sdt_space d n) n I (scf_energy (noa d) (nob d) I + cc_energy d H T + w) (fun D => get_r0 d (hbar_ccsdt d H T) R w * psi D + cluster_sdt d R psi D) <->
   same_amps3 d (eomt_HR d (hbar_ccsdt d H T) T R) (scale3 w R)).
Proof.
  intros Hd HI HT HT3 HY HY3 Hm Hw H psi HR. assert (Q := C85_eigenvector d I T R n m (get_r0 d (hbar_ccsdt d H T) R w) w Hd HI HT HT3 HY HY3 Hm HR). fold H psi in Q. rewrite Q.
  split; [now intros (K & _)|]. intros K. split; [exact K|]. unfold get_r0. field. exact Hw.
Qed.

(** The whole chain: molecular integrals, frozen core, the program's arrays, converged CCSDT, total energy of the excited state *)
Theorem C85_eomccsdt e1 e2 s T R shift m w : (forall p q r t, e2 p q r t = e2 q p t r) -> (s_noa s <= s_norb s)%nat -> (s_nob s <= s_norb s)%nat ->
  antisym_amps T -> triples_anti T -> antisym_amps R -> triples_anti R -> (s_noa s + s_nob s + 4 <= m)%nat -> w <> 0 ->
  let d := sys_dims s in
  let H := fock_ints (s_noa s) (s_nob s) (valence e1 e2 (s_nf s)) in
  let h p q := h_a (valence e1 e2 (s_nf s)) p q in
  let e p q r t := e2 (s_nf s + p)%nat (s_nf s + q)%nat (s_nf s + r)%nat (s_nf s + t)%nat in
  let psi := sdt_state d T m in
  let r0 := get_r0 d (hbar_ccsdt d H T) R w in
  let state D := r0 * psi D + cluster_sdt d R psi D in
  regular3 d shift H -> same_amps3 d (ccsdt_iter d shift H T) T ->
  holds H (sort_hamiltonian s (get_hamiltonian e1 e2 s true)) /\
  (same_amps3 d (eomt_HR d (hbar_ccsdt d H T) T R) (scale3 w R) <->
     forall D, sdt_space d (s_norb s) D ->
       hamiltonian_r (s_norb s) h e state D = (hf_energy e1 e2 s + cc_energy d H T + w - frozen_core_energy e1 e2 s) * state D).
Proof.
  intros He Ha Hb HT HT3 HY HY3 Hm Hw d H h e psi r0 state Rg It.
  assert (Hd : shape d (s_norb s)) by (split; cbn [d sys_dims noa nua nob nub]; lia).
  assert (HX : exchangeable (valence e1 e2 (s_nf s))) by (split; intros; apply He).
  assert (EH : hamiltonian_r (s_norb s) h e = hamiltonian (s_norb s) (valence e1 e2 (s_nf s))).
  { rewrite C63_textbook by (intros; apply He). reflexivity. }
  assert (ER := C63_reference_energy e1 e2 s He). split; [now apply C63_arrays|].
  assert (HR : same_amps3 d (ccsdt_resid d H T) zero_amps) by (apply (C79_iteration d shift H T); assumption).
  assert (Q := C85_state d (valence e1 e2 (s_nf s)) T R (s_norb s) m w Hd HX HT HT3 HY HY3 Hm Hw HR). refine (iff_trans (iff_sym Q) _). rewrite EH, ER.
  replace (frozen_core_energy e1 e2 s + scf_energy (s_noa s) (s_nob s) (valence e1 e2 (s_nf s)) + cc_energy d H T + w - frozen_core_energy e1 e2 s)
    with (scf_energy (s_noa s) (s_nob s) (valence e1 e2 (s_nf s)) + cc_energy d H T + w) by ring.
  reflexivity.
Qed.

(** A case: the levels of C79_instance.  Moving the upper alpha electron to the level 1 costs -4, and so does moving all three electrons to the levels 1, -1 and 1. *)
Fixpoint killz (z : nat -> bool) (e : ex) : ex :=
  match e with
  | EC n d => EC n d
  | ET k ix => if z k then EC 0 1 else e
  | EAdd a b => let a := killz z a in let b := killz z b in if isz a then b else if isz b then a else EAdd a b
  | ESub a b => let a := killz z a in let b := killz z b in if isz b then a else if isz a then EOpp b else ESub a b
  | EOpp a => let a := killz z a in if isz a then EC 0 1 else EOpp a
  | EMul a b => let b := killz z b in if isz b then EC 0 1 else let a := killz z a in if isz a then EC 0 1 else EMul a b
  | EScale n d a => let a := killz z a in if isz a then EC 0 1 else EScale n d a
  | ESum x d a => let a := killz z a in if isz a then EC 0 1 else ESum x d a
  end.
Lemma killz_ok z dim ten e : (forall k ix, z k = true -> ten k ix = 0) -> forall v, den dim ten (killz z e) v = den dim ten e v.
Proof.
  intros Z. induction e as [n d|k ix|a IHa b IHb|a IHa b IHb|a IHa|a IHa b IHb|n d a IHa|x d a IHa]; intros v; cbn [killz]; cbv zeta.
  - reflexivity.
  - destruct (z k) eqn:L; [|reflexivity]. rewrite den_zero. cbn [den]. now rewrite Z.
  - destruct (isz (killz z a)) eqn:A; [|destruct (isz (killz z b)) eqn:B]; cbn [den]; rewrite <- ?IHa, <- ?IHb.
    + rewrite (isz_ok dim ten _ v A). ring.
    + rewrite (isz_ok dim ten _ v B). ring.
    + reflexivity.
  - destruct (isz (killz z b)) eqn:B; [|destruct (isz (killz z a)) eqn:A]; cbn [den]; rewrite <- ?IHa, <- ?IHb.
    + rewrite (isz_ok dim ten _ v B). ring.
    + rewrite (isz_ok dim ten _ v A). ring.
    + reflexivity.
  - destruct (isz (killz z a)) eqn:A; [rewrite den_zero|]; cbn [den]; rewrite <- ?IHa; [rewrite (isz_ok dim ten _ v A)|]; ring.
  - destruct (isz (killz z b)) eqn:B; [rewrite den_zero|destruct (isz (killz z a)) eqn:A; [rewrite den_zero|]]; cbn [den]; rewrite <- ?IHa, <- ?IHb; [rewrite (isz_ok dim ten _ v B)|rewrite (isz_ok dim ten _ v A)|]; ring.
  - destruct (isz (killz z a)) eqn:A; [rewrite den_zero|]; cbn [den]; rewrite <- ?IHa; [rewrite (isz_ok dim ten _ v A)|]; ring.
  - destruct (isz (killz z a)) eqn:A; [rewrite den_zero|]; cbn [den].
    + symmetry. apply sumn_0; intros i _. rewrite <- IHa. now apply isz_ok.
    + apply sumn_ext; intros i _. apply IHa.
Qed.
Definition qy_a (a i : nat) : Q := match a, i with 0%nat, 1%nat => 3 | _, _ => 0 end.
Definition qy_aab (a b c i j k : nat) : Q := match c, k with 1%nat, 0%nat => q_sgn a b * q_sgn i j * (1 # 3) | _, _ => 0 end.
Definition Y_lev : amps := mkAmps (fun a i => Q2R (qy_a a i)) (fun _ _ => 0) (fun _ _ _ _ => 0) (fun _ _ _ _ => 0) (fun _ _ _ _ => 0)
  (fun _ _ _ _ _ _ => 0) (fun a b c i j k => Q2R (qy_aab a b c i j k)) (fun _ _ _ _ _ _ => 0) (fun _ _ _ _ _ _ => 0).
Definition q_jt (k : nat) : list nat -> Q :=
  match k with
  | 0 => qp2 (fun p q => q_level p (2 + q)) | 5 => qp2 (fun p q => q_level p (1 + q)) | 7 => qp2 (fun p q => q_level (2 + p) (2 + q)) | 12 => qp2 q_level
  | 15 => qp2 (fun p q => q_level (1 + p) (1 + q)) | 19 => qp2 q_level | 25 => qp6 q_aab | 27 => qp2 (fun p q => q_level (2 + p) q) | 31 => qp2 (fun p q => q_level (1 + p) q)
  | 51 => qp2 qy_a | 56 => qp6 qy_aab | _ => fun _ => 0%Q end%nat.
Definition jt_zero (k : nat) : bool := negb (existsb (Nat.eqb k) [0; 5; 7; 12; 15; 19; 25; 27; 31; 51; 56]%nat).
Lemma fa_lev p q : fock_a 2 1 I_lev p q = Q2R (q_level p q).
Proof. unfold fock_a, I_lev. cbn [sumn real h_a w_aa w_ab q_levels q_a q_aa q_ab]. rewrite !q0. ring. Qed.
Lemma fb_lev p q : fock_b 2 1 I_lev p q = Q2R (q_level p q).
Proof. unfold fock_b, I_lev. cbn [sumn real h_b w_bb w_ab q_levels q_b q_bb q_ab]. rewrite !q0. ring. Qed.
Lemma lev_aa p q r s : anti_aa I_lev p q r s = 0.
Proof. unfold anti_aa, I_lev. cbn [real w_aa q_levels q_aa]. rewrite q0. ring. Qed.
Lemma lev_bb p q r s : anti_bb I_lev p q r s = 0.
Proof. unfold anti_bb, I_lev. cbn [real w_bb q_levels q_bb]. rewrite q0. ring. Qed.
Lemma lev_ab p q r s : w_ab I_lev p q r s = 0.
Proof. exact q0. Qed.
Lemma q_jt_ok k l : tenv (jt_arrays d_lev (fock_ints 2 1 I_lev) T_lev Y_lev) k l = Q2R (q_jt k l).
Proof.
  unfold tenv.
  do 74 (destruct k as [|k]; [cbn [nth jt_arrays q_jt]; unfold ap2, ap4, ap6, qp2, qp6; do 7 (try destruct l as [|? l]); rewrite ?q0; try reflexivity;
    first [apply fa_lev|apply fb_lev|apply lev_aa|apply lev_ab|apply lev_bb|exact q0]|]).
  rewrite nth_overflow by (cbn [length jt_arrays]; lia). cbn [q_jt]. now rewrite q0.
Qed.
Lemma jt_zero_ok k l : jt_zero k = true -> tenv (jt_arrays d_lev (fock_ints 2 1 I_lev) T_lev Y_lev) k l = 0.
Proof.
  intros Z. rewrite q_jt_ok. do 57 (destruct k as [|k]; [first [discriminate Z|exact q0]|]). exact q0.
Qed.
Definition lev_eq (e : ex) (v : Q) (l : list nat) : bool := Qeq_bool (denq (fdim d_lev) q_jt e (venv l)) (- (4) * v).
Lemma lev_eq_ok e v l : lev_eq (killz jt_zero e) v l = true -> den (fdim d_lev) (tenv (jt_arrays d_lev (fock_ints 2 1 I_lev) T_lev Y_lev)) e (venv l) = -4 * Q2R v.
Proof.
  intros H. apply Qeq_bool_eq in H. rewrite <- (killz_ok jt_zero _ _ e jt_zero_ok). rewrite (denq_ok _ _ _ q_jt_ok). rewrite (Qeq_eqR _ _ H), Q2R_mult.
  f_equal. unfold Q2R; cbn; lra.
Qed.
Definition z_a := killz jt_zero (r_eomt_X1A_12 2 0 1). Definition z_b := killz jt_zero (r_eomt_X1B_12 2 0 1).
Definition z_aa := killz jt_zero (r_eomt_X2A_19 4 0 1 2 3). Definition z_ab := killz jt_zero (r_eomt_X2B_31 4 0 1 2 3). Definition z_bb := killz jt_zero (r_eomt_X2C_19 4 0 1 2 3).
Definition z_aab := killz jt_zero (r_eomt_X3B_41 6 0 1 2 3 4 5). Definition z_abb := killz jt_zero (r_eomt_X3C_41 6 0 1 2 3 4 5).
Definition all_eq : bool :=
  let all := fun n f => forallb f (seq 0 n) in
  (all 2 (fun a => all 2 (fun i => lev_eq z_a (qy_a a i) [a; i])) && all 3 (fun a => all 1 (fun i => lev_eq z_b 0 [a; i])) &&
   all 2 (fun a => all 2 (fun b => all 2 (fun i => all 2 (fun j => lev_eq z_aa 0 [a; b; i; j])))) &&
   all 2 (fun a => all 3 (fun b => all 2 (fun i => all 1 (fun j => lev_eq z_ab 0 [a; b; i; j])))) &&
   all 3 (fun a => all 3 (fun b => all 1 (fun i => all 1 (fun j => lev_eq z_bb 0 [a; b; i; j])))) &&
   all 2 (fun a => all 2 (fun b => all 3 (fun c => all 2 (fun i => all 2 (fun j => all 1 (fun k => lev_eq z_aab (qy_aab a b c i j k) [a; b; c; i; j; k])))))) &&
   all 2 (fun a => all 3 (fun b => all 3 (fun c => all 2 (fun i => all 1 (fun j => all 1 (fun k => lev_eq z_abb 0 [a; b; c; i; j; k])))))))%nat%bool.
Lemma all_eq_ok : all_eq = true. Proof. vm_compute. reflexivity. Qed.
Lemma lev_eigen : same_amps3 d_lev (eomt_HR d_lev (hbar_ccsdt d_lev (fock_ints 2 1 I_lev) T_lev) T_lev Y_lev) (scale3 (-4) Y_lev).
Proof.
  assert (A := all_eq_ok). unfold all_eq in A. cbv zeta in A. apply andb_prop in A as (A & A7). apply andb_prop in A as (A & A6). apply andb_prop in A as (A & A5). apply andb_prop in A as (A & A4). apply andb_prop in A as (A & A3). apply andb_prop in A as (A1 & A2).
  assert (Z : -4 * Q2R 0 = -4 * 0) by (rewrite q0; ring).
  unfold same_amps3. cbn [d_lev noa nua nob nub]. split; [|split; [|split; [|split; [|split; [|split; [|split; [|split]]]]]]].
  - intros a i Ha Hi. apply all_ok with (k := a) in A1; [|exact Ha]. apply all_ok with (k := i) in A1; [|exact Hi]. exact (lev_eq_ok _ _ _ A1).
  - intros a i Ha Hi. apply all_ok with (k := a) in A2; [|exact Ha]. apply all_ok with (k := i) in A2; [|exact Hi]. exact (eq_trans (lev_eq_ok _ _ _ A2) Z).
  - intros a b i j Ha Hb Hi Hj. apply all_ok with (k := a) in A3; [|exact Ha]. apply all_ok with (k := b) in A3; [|exact Hb]. apply all_ok with (k := i) in A3; [|exact Hi]. apply all_ok with (k := j) in A3; [|exact Hj]. exact (eq_trans (lev_eq_ok _ _ _ A3) Z).
  - intros a b i j Ha Hb Hi Hj. apply all_ok with (k := a) in A4; [|exact Ha]. apply all_ok with (k := b) in A4; [|exact Hb]. apply all_ok with (k := i) in A4; [|exact Hi]. apply all_ok with (k := j) in A4; [|exact Hj]. exact (eq_trans (lev_eq_ok _ _ _ A4) Z).
  - intros a b i j Ha Hb Hi Hj. apply all_ok with (k := a) in A5; [|exact Ha]. apply all_ok with (k := b) in A5; [|exact Hb]. apply all_ok with (k := i) in A5; [|exact Hi]. apply all_ok with (k := j) in A5; [|exact Hj]. exact (eq_trans (lev_eq_ok _ _ _ A5) Z).
  - intros a b c i j k _ _ _ Hi Hj Hk. transitivity 0; [|cbn [scale3 Y_lev x_aaa]; ring]. refine (eq_trans (X3A_fin _ _ _ _ a b c i j k) _). apply comb3_same. lia.
  - intros a b c i j k Ha Hb Hc Hi Hj Hk. apply all_ok with (k := a) in A6; [|exact Ha]. apply all_ok with (k := b) in A6; [|exact Hb]. apply all_ok with (k := c) in A6; [|exact Hc].
    apply all_ok with (k := i) in A6; [|exact Hi]. apply all_ok with (k := j) in A6; [|exact Hj]. apply all_ok with (k := k) in A6; [|exact Hk]. exact (lev_eq_ok _ _ _ A6).
  - intros a b c i j k Ha Hb Hc Hi Hj Hk. apply all_ok with (k := a) in A7; [|exact Ha]. apply all_ok with (k := b) in A7; [|exact Hb]. apply all_ok with (k := c) in A7; [|exact Hc].
    apply all_ok with (k := i) in A7; [|exact Hi]. apply all_ok with (k := j) in A7; [|exact Hj]. apply all_ok with (k := k) in A7; [|exact Hk]. exact (eq_trans (lev_eq_ok _ _ _ A7) Z).
  - intros a b c i j k _ _ _ Hi Hj Hk. transitivity 0; [|cbn [scale3 Y_lev x_bbb]; ring]. refine (eq_trans (X3D_fin _ _ _ _ a b c i j k) _). apply comb3_same. lia.
Qed.
Example C85_instance : shape d_lev 4 /\ exchangeable I_lev /\ antisym_amps T_lev /\ triples_anti T_lev /\ antisym_amps Y_lev /\ triples_anti Y_lev /\
  same_amps3 d_lev (ccsdt_resid d_lev (fock_ints 2 1 I_lev) T_lev) zero_amps /\
  same_amps3 d_lev (eomt_HR d_lev (hbar_ccsdt d_lev (fock_ints 2 1 I_lev) T_lev) T_lev Y_lev) (scale3 (-4) Y_lev) /\
  x_aab T_lev 0%nat 1%nat 0%nat 0%nat 1%nat 0%nat = / 2 /\ x_a Y_lev 0%nat 1%nat = 3 /\ x_aab Y_lev 0%nat 1%nat 1%nat 0%nat 1%nat 0%nat = / 3 /\ -4 <> 0.
Proof.
  destruct C79_instance as (E1 & E2 & E3 & E4 & _ & E6 & E7).
  split; [exact E1|]. split; [exact E2|]. split; [exact E3|]. split; [exact E4|].
  split; [constructor; intros; cbn [Y_lev x_aa x_bb]; ring|].
  split; [|split; [exact E6|split; [exact lev_eigen|split; [exact E7|split; [|split; [|lra]]]]]].
  - unfold triples_anti. cbn [Y_lev x_aaa x_aab x_abb x_bbb].
    assert (A1 : forall a b c i j k, Q2R (qy_aab a b c i j k) = - Q2R (qy_aab a b c j i k)).
    { intros. rewrite <- Q2R_opp. apply Qeq_eqR. unfold qy_aab. destruct c as [|[|c]]; try reflexivity. destruct k; [|reflexivity]. rewrite (sgn_anti i j). ring. }
    assert (A2 : forall a b c i j k, Q2R (qy_aab a b c i j k) = - Q2R (qy_aab b a c i j k)).
    { intros. rewrite <- Q2R_opp. apply Qeq_eqR. unfold qy_aab. destruct c as [|[|c]]; try reflexivity. destruct k; [|reflexivity]. rewrite (sgn_anti a b). ring. }
    repeat split; first [exact A1|exact A2|intros; ring].
  - cbn [Y_lev x_a qy_a]. unfold Q2R; cbn; lra.
  - cbn [Y_lev x_aab qy_aab q_sgn]. unfold Q2R; cbn; lra.
Qed.

Print Assumptions C85_jacobian.
Print Assumptions C85_eomccsdt.
