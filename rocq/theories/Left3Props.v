(** C88: the left vectors of IP-EOMCCSD(3h-2p) and EA-EOMCCSD(3p-2h) (left_ipeom3.py, left_eaeom3.py). *)
From Coq Require Import Reals Arith List Bool Lra Lia QArith Qreals.
From Verif Require Import RSum IntegralsModel TensorObjs TensorAlg TensorSpec CcsdModel CcsdUpdate CcsdProps IntsFix FockSpec FockCcSpec FockExp FockProj FockProps FockSectorTools SectorProps Sector3Model Sector3Spec QEval Sector3Cases Sector3Props Left3Model SectorIptLeft SectorEatLeft.
Import ListNotations.
Close Scope Q_scope.
Open Scope R_scope.

(** * IP (3h-2p): the scalar product over the distinct components of antisymmetric vectors *)
Ltac okswap5 H := split; [intros ix Hx; cbn [length] in Hx; destruct ix as [|? [|? [|? [|? [|? [|? ix]]]]]]; try discriminate; cbn -[Rmult IZR]; rewrite H; cbn [sgn]; ring
  |cbn [In length]; intros; lia].
Definition ipt_dot (d : dims) (L Y : iptv) : R :=
  sumn (noa d) (fun i => ipt_a L i * ipt_a Y i)
  + 1 / 2 * sumn (noa d) (fun i => sumn (nua d) (fun a => sumn (noa d) (fun j => ipt_aa L i a j * ipt_aa Y i a j)))
  + sumn (noa d) (fun i => sumn (nub d) (fun a => sumn (nob d) (fun j => ipt_ab L i a j * ipt_ab Y i a j)))
  + 1 / 12 * sumn (noa d) (fun i => sumn (nua d) (fun a => sumn (nua d) (fun b => sumn (noa d) (fun j => sumn (noa d) (fun k => ipt_aaa L i a b j k * ipt_aaa Y i a b j k)))))
  + 1 / 2 * sumn (noa d) (fun i => sumn (nua d) (fun a => sumn (nub d) (fun b => sumn (noa d) (fun j => sumn (nob d) (fun k => ipt_aab L i a b j k * ipt_aab Y i a b j k)))))
  + 1 / 4 * sumn (noa d) (fun i => sumn (nub d) (fun a => sumn (nub d) (fun b => sumn (nob d) (fun j => sumn (nob d) (fun k => ipt_abb L i a b j k * ipt_abb Y i a b j k))))).
Definition ipt_sum (d : dims) (L Y : iptv) : R :=
  sumn (noa d) (fun i => ipt_a L i * ipt_a Y i)
  + sumn (noa d) (fun i => sumn (nua d) (fun a => sumn (noa d) (fun j => ipt_aa L i a j * ipt_aa Y i a j)))
  + sumn (noa d) (fun i => sumn (nub d) (fun a => sumn (nob d) (fun j => ipt_ab L i a j * ipt_ab Y i a j)))
  + sumn (noa d) (fun i => sumn (nua d) (fun a => sumn (nua d) (fun b => sumn (noa d) (fun j => sumn (noa d) (fun k => ipt_aaa L i a b j k * ipt_aaa Y i a b j k)))))
  + sumn (noa d) (fun i => sumn (nua d) (fun a => sumn (nub d) (fun b => sumn (noa d) (fun j => sumn (nob d) (fun k => ipt_aab L i a b j k * ipt_aab Y i a b j k)))))
  + sumn (noa d) (fun i => sumn (nub d) (fun a => sumn (nub d) (fun b => sumn (nob d) (fun j => sumn (nob d) (fun k => ipt_abb L i a b j k * ipt_abb Y i a b j k))))).
Lemma ipt_halves_r d L Q : ipt_anti L -> ipt_dot d L (ipt_asym_r Q) = ipt_sum d L Q.
Proof.
  intros (H1 & H2 & H3 & H4 & H5 & H6 & H7).
  change (den (denv [noa d; nua d; nob d; nub d]) (tenv (iptas_arrays L Q)) (r_ipt_asym_r 0) (venv []) = den (denv [noa d; nua d; nob d; nub d]) (tenv (iptas_arrays L Q)) (r_ipt_plain 0) (venv [])).
  apply (same_tab_sound _ _ iptas_gens (length (iptas_arrays L Q)) iptas_tab (fun x => x) [0; 1; 2; 3]%nat).
  - vm_compute. reflexivity.
  - reflexivity.
  - repeat (apply Forall_cons; [first [okswap5 H1|okswap5 H2|okswap5 H3|okswap5 H4|okswap5 H5|okswap5 H6|okswap5 H7]|]); apply Forall_nil.
  - vm_compute. reflexivity.
Qed.
Lemma ipt_halves_l d L Q : ipt_anti L -> ipt_dot d L (ipt_asym_l Q) = ipt_sum d L Q.
Proof.
  intros (H1 & H2 & H3 & H4 & H5 & H6 & H7).
  change (den (denv [noa d; nua d; nob d; nub d]) (tenv (iptas_arrays L Q)) (r_ipt_asym_l 0) (venv []) = den (denv [noa d; nua d; nob d; nub d]) (tenv (iptas_arrays L Q)) (r_ipt_plain 0) (venv [])).
  apply (same_tab_sound _ _ iptas_gens (length (iptas_arrays L Q)) iptas_tab (fun x => x) [0; 1; 2; 3]%nat).
  - vm_compute. reflexivity.
  - reflexivity.
  - repeat (apply Forall_cons; [first [okswap5 H1|okswap5 H2|okswap5 H3|okswap5 H4|okswap5 H5|okswap5 H6|okswap5 H7]|]); apply Forall_nil.
  - vm_compute. reflexivity.
Qed.
Lemma ipt_dot_sym d L Y : ipt_dot d L Y = ipt_dot d Y L.
Proof. unfold ipt_dot. repeat apply (f_equal2 Rplus); try apply (f_equal2 Rmult eq_refl); repeat (apply sumn_ext; intros ? _); ring. Qed.
Lemma ipt_sums d H T L Y : antisym_ints H -> antisym_amps T -> ipt_anti L -> ipt_anti Y -> ipt_sum d L (ipt_pre_r d H T Y) = ipt_sum d Y (ipt_pre_l d H T L).
Proof.
  intros HH HT (H1 & H2 & H3 & H4 & H5 & H6 & H7) (G1 & G2 & G3 & G4 & G5 & G6 & G7).
  change (den (denv [noa d; nua d; nob d; nub d]) (tenv (iptlr_arrays d H T L Y)) (r_ipt_lhs 0) (venv []) = den (denv [noa d; nua d; nob d; nub d]) (tenv (iptlr_arrays d H T L Y)) (r_ipt_rhs 0) (venv [])).
  apply (same_tab_sound _ _ iptlr_gens (length (iptlr_arrays d H T L Y)) iptlr_tab (fun x => x) [0; 1; 2; 3]%nat).
  - vm_compute. reflexivity.
  - reflexivity.
  - repeat (apply Forall_cons; [first [sym1|okswap5 H1|okswap5 H2|okswap5 H3|okswap5 H4|okswap5 H5|okswap5 H6|okswap5 H7|okswap5 G1|okswap5 G2|okswap5 G3|okswap5 G4|okswap5 G5|okswap5 G6|okswap5 G7]|]); apply Forall_nil.
  - vm_compute. reflexivity.
Qed.
(** <L|H R> = <L H|R> for every antisymmetric L and R and every dressed Hamiltonian ... *)
Theorem C88_ip_adjoint d H T L Y : antisym_ints H -> antisym_amps T -> ipt_anti L -> ipt_anti Y -> ipt_dot d L (ipt_HR d H T Y) = ipt_dot d (ipt_LH d H T L) Y.
Proof.
  intros HH HT HL HY. rewrite (ipt_dot_sym d (ipt_LH d H T L)).
  change (ipt_dot d L (ipt_asym_r (ipt_pre_r d H T Y)) = ipt_dot d Y (ipt_asym_l (ipt_pre_l d H T L))).
  rewrite ipt_halves_r, ipt_halves_l by assumption. now apply ipt_sums.
Qed.
(** ... in particular for the one the program uses *)
Theorem C88_ip_adjoint_hbar d H T L Y : antisym_ints H -> antisym_amps T -> ipt_anti L -> ipt_anti Y ->
  let HB := hbar_ccsd d H T in ipt_dot d L (ipt_HR d HB T Y) = ipt_dot d (ipt_LH d HB T L) Y.
Proof.
  intros HH HT HL HY HB. change (ipt_dot d L (ipt_HR d (fix_ints HB) T Y) = ipt_dot d (ipt_LH d (fix_ints HB) T L) Y).
  apply C88_ip_adjoint; [apply fix_ints_antisym, hbar_primary|..]; assumption.
Qed.
Lemma ipt_dot_root d L S Y w : ipt_root d S Y w -> ipt_dot d L S = w * ipt_dot d L Y.
Proof.
  intros (R1 & R2 & R3 & R4 & R5 & R6). unfold ipt_dot. rewrite !Rmult_plus_distr_l, <- !(Rmult_assoc w (1 / _)), !(Rmult_comm w (1 / _)), !Rmult_assoc.
  repeat apply (f_equal2 Rplus); try apply (f_equal2 Rmult eq_refl); repeat (rewrite <- sumn_scal; apply sumn_ext; intros ? ?); rewrite ?R1, ?R2, ?R3, ?R4, ?R5, ?R6 by assumption; ring.
Qed.
(** Left and right eigenvectors of different roots are orthogonal *)
Theorem C88_ip_biorthogonal d H T L Y w1 w2 : antisym_ints H -> antisym_amps T -> ipt_anti L -> ipt_anti Y ->
  let HB := hbar_ccsd d H T in ipt_root d (ipt_LH d HB T L) L w1 -> ipt_root d (ipt_HR d HB T Y) Y w2 -> w1 <> w2 -> ipt_dot d L Y = 0.
Proof.
  intros HH HT HL HY HB R1 R2 Hw. assert (E := C88_ip_adjoint_hbar d H T L Y HH HT HL HY). cbn zeta in E. fold HB in E.
  rewrite (ipt_dot_root d L _ Y w2 R2), (ipt_dot_sym d (ipt_LH d HB T L)), (ipt_dot_root d Y _ L w1 R1), (ipt_dot_sym d Y L) in E.
  assert (Z : (w2 - w1) * ipt_dot d L Y = 0) by lra. apply Rmult_integral in Z as [Z|Z]; [exfalso; lra|exact Z].
Qed.
(** The left vector is antisymmetric *)
Theorem C88_ip_antisym d H T L : ipt_anti (ipt_LH d H T L).
Proof. change (ipt_anti (ipt_asym_l (ipt_pre_l d H T L))). unfold ipt_anti. repeat split; intros; cbn [ipt_asym_l ipt_a ipt_aa ipt_ab ipt_aaa ipt_aab ipt_abb]; ring. Qed.

(** * EA (3p-2h): the scalar product over the distinct components of antisymmetric vectors *)
Definition eat_dot (d : dims) (L Y : eatv) : R :=
  sumn (nua d) (fun a => eat_a L a * eat_a Y a)
  + 1 / 2 * sumn (nua d) (fun a => sumn (nua d) (fun b => sumn (noa d) (fun i => eat_aa L a b i * eat_aa Y a b i)))
  + sumn (nua d) (fun a => sumn (nub d) (fun b => sumn (nob d) (fun i => eat_ab L a b i * eat_ab Y a b i)))
  + 1 / 12 * sumn (nua d) (fun a => sumn (nua d) (fun b => sumn (nua d) (fun c => sumn (noa d) (fun i => sumn (noa d) (fun j => eat_aaa L a b c i j * eat_aaa Y a b c i j)))))
  + 1 / 2 * sumn (nua d) (fun a => sumn (nua d) (fun b => sumn (nub d) (fun c => sumn (noa d) (fun i => sumn (nob d) (fun j => eat_aab L a b c i j * eat_aab Y a b c i j)))))
  + 1 / 4 * sumn (nua d) (fun a => sumn (nub d) (fun b => sumn (nub d) (fun c => sumn (nob d) (fun i => sumn (nob d) (fun j => eat_abb L a b c i j * eat_abb Y a b c i j))))).
Definition eat_sum (d : dims) (L Y : eatv) : R :=
  sumn (nua d) (fun a => eat_a L a * eat_a Y a)
  + sumn (nua d) (fun a => sumn (nua d) (fun b => sumn (noa d) (fun i => eat_aa L a b i * eat_aa Y a b i)))
  + sumn (nua d) (fun a => sumn (nub d) (fun b => sumn (nob d) (fun i => eat_ab L a b i * eat_ab Y a b i)))
  + sumn (nua d) (fun a => sumn (nua d) (fun b => sumn (nua d) (fun c => sumn (noa d) (fun i => sumn (noa d) (fun j => eat_aaa L a b c i j * eat_aaa Y a b c i j)))))
  + sumn (nua d) (fun a => sumn (nua d) (fun b => sumn (nub d) (fun c => sumn (noa d) (fun i => sumn (nob d) (fun j => eat_aab L a b c i j * eat_aab Y a b c i j)))))
  + sumn (nua d) (fun a => sumn (nub d) (fun b => sumn (nub d) (fun c => sumn (nob d) (fun i => sumn (nob d) (fun j => eat_abb L a b c i j * eat_abb Y a b c i j))))).
Lemma eat_halves_r d L Q : eat_anti L -> eat_dot d L (eat_asym_r Q) = eat_sum d L Q.
Proof.
  intros (H1 & H2 & H3 & H4 & H5 & H6 & H7).
  change (den (denv [noa d; nua d; nob d; nub d]) (tenv (eatas_arrays L Q)) (r_eat_asym_r 0) (venv []) = den (denv [noa d; nua d; nob d; nub d]) (tenv (eatas_arrays L Q)) (r_eat_plain 0) (venv [])).
  apply (same_tab_sound _ _ eatas_gens (length (eatas_arrays L Q)) eatas_tab (fun x => x) [0; 1; 2; 3]%nat).
  - vm_compute. reflexivity.
  - reflexivity.
  - repeat (apply Forall_cons; [first [okswap5 H1|okswap5 H2|okswap5 H3|okswap5 H4|okswap5 H5|okswap5 H6|okswap5 H7]|]); apply Forall_nil.
  - vm_compute. reflexivity.
Qed.
Lemma eat_halves_l d L Q : eat_anti L -> eat_dot d L (eat_asym_l Q) = eat_sum d L Q.
Proof.
  intros (H1 & H2 & H3 & H4 & H5 & H6 & H7).
  change (den (denv [noa d; nua d; nob d; nub d]) (tenv (eatas_arrays L Q)) (r_eat_asym_l 0) (venv []) = den (denv [noa d; nua d; nob d; nub d]) (tenv (eatas_arrays L Q)) (r_eat_plain 0) (venv [])).
  apply (same_tab_sound _ _ eatas_gens (length (eatas_arrays L Q)) eatas_tab (fun x => x) [0; 1; 2; 3]%nat).
  - vm_compute. reflexivity.
  - reflexivity.
  - repeat (apply Forall_cons; [first [okswap5 H1|okswap5 H2|okswap5 H3|okswap5 H4|okswap5 H5|okswap5 H6|okswap5 H7]|]); apply Forall_nil.
  - vm_compute. reflexivity.
Qed.
Lemma eat_dot_sym d L Y : eat_dot d L Y = eat_dot d Y L.
Proof. unfold eat_dot. repeat apply (f_equal2 Rplus); try apply (f_equal2 Rmult eq_refl); repeat (apply sumn_ext; intros ? _); ring. Qed.
Lemma eat_sums d H T L Y : antisym_ints H -> antisym_amps T -> eat_anti L -> eat_anti Y -> eat_sum d L (eat_pre_r d H T Y) = eat_sum d Y (eat_pre_l d H T L).
Proof.
  intros HH HT (H1 & H2 & H3 & H4 & H5 & H6 & H7) (G1 & G2 & G3 & G4 & G5 & G6 & G7).
  change (den (denv [noa d; nua d; nob d; nub d]) (tenv (eatlr_arrays d H T L Y)) (r_eat_lhs 0) (venv []) = den (denv [noa d; nua d; nob d; nub d]) (tenv (eatlr_arrays d H T L Y)) (r_eat_rhs 0) (venv [])).
  apply (same_tab_sound _ _ eatlr_gens (length (eatlr_arrays d H T L Y)) eatlr_tab (fun x => x) [0; 1; 2; 3]%nat).
  - vm_compute. reflexivity.
  - reflexivity.
  - repeat (apply Forall_cons; [first [sym1|okswap5 H1|okswap5 H2|okswap5 H3|okswap5 H4|okswap5 H5|okswap5 H6|okswap5 H7|okswap5 G1|okswap5 G2|okswap5 G3|okswap5 G4|okswap5 G5|okswap5 G6|okswap5 G7]|]); apply Forall_nil.
  - vm_compute. reflexivity.
Qed.
(** <L|H R> = <L H|R> for every antisymmetric L and R and every dressed Hamiltonian ... *)
Theorem C88_ea_adjoint d H T L Y : antisym_ints H -> antisym_amps T -> eat_anti L -> eat_anti Y -> eat_dot d L (eat_HR d H T Y) = eat_dot d (eat_LH d H T L) Y.
Proof.
  intros HH HT HL HY. rewrite (eat_dot_sym d (eat_LH d H T L)).
  change (eat_dot d L (eat_asym_r (eat_pre_r d H T Y)) = eat_dot d Y (eat_asym_l (eat_pre_l d H T L))).
  rewrite eat_halves_r, eat_halves_l by assumption. now apply eat_sums.
Qed.
(** ... in particular for the one the program uses *)
Theorem C88_ea_adjoint_hbar d H T L Y : antisym_ints H -> antisym_amps T -> eat_anti L -> eat_anti Y ->
  let HB := hbar_ccsd d H T in eat_dot d L (eat_HR d HB T Y) = eat_dot d (eat_LH d HB T L) Y.
Proof.
  intros HH HT HL HY HB. change (eat_dot d L (eat_HR d (fix_ints HB) T Y) = eat_dot d (eat_LH d (fix_ints HB) T L) Y).
  apply C88_ea_adjoint; [apply fix_ints_antisym, hbar_primary|..]; assumption.
Qed.
Lemma eat_dot_root d L S Y w : eat_root d S Y w -> eat_dot d L S = w * eat_dot d L Y.
Proof.
  intros (R1 & R2 & R3 & R4 & R5 & R6). unfold eat_dot. rewrite !Rmult_plus_distr_l, <- !(Rmult_assoc w (1 / _)), !(Rmult_comm w (1 / _)), !Rmult_assoc.
  repeat apply (f_equal2 Rplus); try apply (f_equal2 Rmult eq_refl); repeat (rewrite <- sumn_scal; apply sumn_ext; intros ? ?); rewrite ?R1, ?R2, ?R3, ?R4, ?R5, ?R6 by assumption; ring.
Qed.
(** Left and right eigenvectors of different roots are orthogonal *)
Theorem C88_ea_biorthogonal d H T L Y w1 w2 : antisym_ints H -> antisym_amps T -> eat_anti L -> eat_anti Y ->
  let HB := hbar_ccsd d H T in eat_root d (eat_LH d HB T L) L w1 -> eat_root d (eat_HR d HB T Y) Y w2 -> w1 <> w2 -> eat_dot d L Y = 0.
Proof.
  intros HH HT HL HY HB R1 R2 Hw. assert (E := C88_ea_adjoint_hbar d H T L Y HH HT HL HY). cbn zeta in E. fold HB in E.
  rewrite (eat_dot_root d L _ Y w2 R2), (eat_dot_sym d (eat_LH d HB T L)), (eat_dot_root d Y _ L w1 R1), (eat_dot_sym d Y L) in E.
  assert (Z : (w2 - w1) * eat_dot d L Y = 0) by lra. apply Rmult_integral in Z as [Z|Z]; [exfalso; lra|exact Z].
Qed.
(** The left vector is antisymmetric *)
Theorem C88_ea_antisym d H T L : eat_anti (eat_LH d H T L).
Proof. change (eat_anti (eat_asym_l (eat_pre_l d H T L))). unfold eat_anti. repeat split; intros; cbn [eat_asym_l eat_a eat_aa eat_ab eat_aaa eat_aab eat_abb]; ring. Qed.

(** * Cases: the right eigenvectors of C74_instance and C75_instance as left vectors; the roots 1 and 5/2 of C66_instance *)
Definition ex_ipt : iptv := mkIpt (fun _ => 1) (fun _ _ _ => 0) (fun _ _ _ => 0) (fun _ _ _ _ _ => 0) (fun _ _ _ _ _ => 0) (fun _ _ _ _ _ => 0).
Definition ex_ipt2 : iptv := mkIpt (fun _ => 0) (fun _ _ _ => 0) (fun _ _ _ => 1) (fun _ _ _ _ _ => 0) (fun _ _ _ _ _ => 0) (fun _ _ _ _ _ => 0).
Lemma d_ipt : ipt_dot d_remove y_ipt y_ipt = 841 / 625.
Proof. unfold ipt_dot. cbn. unfold Q2R. cbn. lra. Qed.
Lemma d_eat : eat_dot d_attach y_eat y_eat = 841 / 625.
Proof. unfold eat_dot. cbn. unfold Q2R. cbn. lra. Qed.
Example C88_instance : (antisym_ints (fock_ints 2 2 I_remove) /\ antisym_amps T_remove /\ ipt_anti y_ipt /\
  ipt_dot d_remove (ipt_LH d_remove (hbar_ccsd d_remove (fock_ints 2 2 I_remove) T_remove) T_remove y_ipt) y_ipt = 15 * (841 / 625)) /\
  (antisym_ints (fock_ints 1 1 I_attach) /\ antisym_amps T_attach /\ eat_anti y_eat /\
  eat_dot d_attach (eat_LH d_attach (hbar_ccsd d_attach (fock_ints 1 1 I_attach) T_attach) T_attach y_eat) y_eat = 15 * (841 / 625)) /\
  (ipt_anti ex_ipt /\ ipt_anti ex_ipt2 /\ ipt_root ex_dims (ipt_LH ex_dims ex_bar ex_amps ex_ipt) ex_ipt 1 /\ ipt_root ex_dims (ipt_HR ex_dims ex_bar ex_amps ex_ipt2) ex_ipt2 (5 / 2)).
Proof.
  destruct C74_instance as (A1 & _ & R1), C75_instance as (A2 & _ & R2), remove_ok as (_ & X1 & T1 & _), attach_ok as (_ & X2 & T2 & _).
  assert (G1 := fock_ints_antisym 2 2 _ X1). assert (G2 := fock_ints_antisym 1 1 _ X2).
  split; [|split].
  - split; [exact G1|]. split; [exact T1|]. split; [exact A1|]. rewrite <- (C88_ip_adjoint_hbar d_remove _ T_remove y_ipt y_ipt G1 T1 A1 A1), (ipt_dot_root _ _ _ _ _ R1), d_ipt. reflexivity.
  - split; [exact G2|]. split; [exact T2|]. split; [exact A2|]. rewrite <- (C88_ea_adjoint_hbar d_attach _ T_attach y_eat y_eat G2 T2 A2 A2), (eat_dot_root _ _ _ _ _ R2), d_eat. reflexivity.
  - split; [unfold ipt_anti; repeat split; intros; cbn; ring|]. split; [unfold ipt_anti; repeat split; intros; cbn; ring|].
    split; (split; [|split; [|split; [|split; [|split]]]]); intros; cbn [ex_dims noa nua nob nub] in *; one; value.
Qed.

Print Assumptions C88_ip_adjoint_hbar.
Print Assumptions C88_ea_biorthogonal.
