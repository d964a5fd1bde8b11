import re
exec(open('/verif/tools/gen_s3props.py').read().split("B={'ipt'")[0].replace('Sector3Model.v','SpinFlip3Fixed.v'))
bl=['b','ab','bb','aab','abb','bbb']; m='sft'
HRn=['sfxr_x1b_11','sfxr_x2b_20','sfxr_x2c_20','sfxr_x3b_17','sfxr_x3c_27','sfxr_x3d_17']
RS='[ap2 (sft_b Y); ap4 (sft_ab Y); ap4 (sft_bb Y); ap6 (sft_aab Y); ap6 (sft_abb Y); ap6 (sft_bbb Y)]'
o='''(** Spin-flip EOMCC with three-body operators: the singles and doubles parts of the sigma vector of the program are those of the Schroedinger equation, the triples
    parts are not; with the eleven terms of SpinFlip3Fixed.v changed they are (C78). *)
From Coq Require Import Reals Arith NArith List Bool Lia Lra QArith Qreals FunctionalExtensionality.
From Verif Require Import RSum IntegralsModel TensorObjs TensorAlg TensorSpec CcsdModel CcsdUpdate IntsFix CcsdReify CcsdProps FockSpec FockCar FockWick FockArrays FockTerms FockCcSpec FockExp FockLevel FockState FockNear FockProj FockProps FockSector FockSectorSpec FockSectorTools SectorProps
  RankSpec FockCount FockDress FockShift Sector3Model Sector3Spec FockSpaces3 FockCheck SpinFlip3Fixed SectorSfxReify SectorSfxFock HbarSpec HbarBlocks Sector3Skel SectorSfxSkel QEval Sector3Cases Sector3Props.
Import ListNotations.
Local Open Scope R_scope.

Lemma sft_op_linear d Y : linear (sft_op d Y).
Proof. replace (sft_op d Y) with (psem (noa d) (nob d) (fdim d) (tenv (fock_arrays (fock_ints (noa d) (nob d) zero_integrals) (bare zero_amps) ++ RS_)) sft_rts (venv [])) by (apply functional_extensionality; intros phi; apply (sft_op_ok d zero_integrals zero_amps Y)). apply psem_linear. Qed.
Lemma sft_op_commute d Y T : commute (sft_op d Y) (ones d T).
Proof.
  replace (sft_op d Y) with (psem (noa d) (nob d) (fdim d) (tenv (fock_arrays (fock_ints (noa d) (nob d) zero_integrals) (bare zero_amps) ++ RS_)) sft_rts (venv [])) by (apply functional_extensionality; intros phi; apply (sft_op_ok d zero_integrals zero_amps Y)).
  apply psem_commute; [reflexivity|reflexivity|vm_compute; reflexivity|apply ones_exc].
Qed.
(** The singles and doubles parts are those of the corrected program, for every input *)
Theorem C78_doubles d H T Y : sft_b (sft_HR d H T Y) = sft_b (sfx_HR d H T Y) /\\ sft_ab (sft_HR d H T Y) = sft_ab (sfx_HR d H T Y) /\\ sft_bb (sft_HR d H T Y) = sft_bb (sfx_HR d H T Y).
Proof. repeat split; reflexivity. Qed.
(** Roots of the corrected program are solutions of the Schroedinger equation on the determinants of the method, with total energy E + w *)
Theorem C78_corrected d I T Y n m w : shape d n -> exchangeable I -> antisym_amps T -> sft_anti Y -> (noa d + nob d + 4 <= m)%nat ->
  let H := fock_ints (noa d) (nob d) I in
  let E := scf_energy (noa d) (nob d) I + cc_energy d H T in
  same_amps d (ccsd_resid d H T) zero_amps ->
  (sft_root d (sfx_HR d (hbar_ccsd d H T) T Y) Y w <-> solves_on (sft_space d n) n I (E + w) (sft_op d Y (cc_state d T m))).
Proof.
  intros HS HI HT HY Hm H E HR.
  apply (through d I T n m (sft_op d Y) (sft_space d n) w E _ (sft_root d (sfx_HR d (hbar_ccsd d (fock_ints (noa d) (nob d) (dressed d T I)) (bare T)) (bare T) Y) Y w)); try assumption.
  - destruct HS as (E1 & E2). now apply sector_downward.
  - apply sft_op_linear.
  - apply sft_op_commute.
  - reflexivity.
  - apply sfx_root_same; [now apply hbar_agree|reflexivity..].
  - intros K. destruct HS as (E1 & E2). apply (sft_solves d (dressed d T I) T Y n m E1 E2); [now apply dressed_exch|exact HT|exact HY|lia|exact K].
Qed.
(** The sigma vector of the program is antisymmetric all the same *)
Theorem C78_antisym d H T Y : sft_anti (sft_HR d H T Y).
Proof. unfold sft_anti. repeat match goal with |- _ /\\ _ => split end; intros; cbn [sft_HR SFB]; unfold TAILS; ring. Qed.

(** * The program: electrons that repel only between orbitals 0 and 4.  Moving the alpha electrons of orbitals 0, 1, 2 to alpha 3, alpha 4 and beta 4 adds the pairs
    beta 0, beta 4 and beta 0, alpha 4: w = 2.  The program gives 7/3. *)
Local Open Scope Q_scope.
Definition e_pair (p q r s : nat) : Q := if (p =? r)%nat && (q =? s)%nat && ((p =? 0)%nat && (q =? 4)%nat || (p =? 4)%nat && (q =? 0)%nat) then 1 else 0.
Definition q_pair : qints := mkQ (fun _ _ => 0) (fun _ _ => 0) e_pair e_pair e_pair.
Definition t_none : qamps := mkQa (fun _ _ => 0) (fun _ _ => 0) (fun _ _ _ _ => 0) (fun _ _ _ _ => 0) (fun _ _ _ _ => 0).
Definition qn (k : nat) : Q := inject_Z (Z.of_nat k).
Definition y_flip (a b c i j k : nat) : Q := (qn b - qn a) * ((qn j - qn i) * (qn k - qn i) * (qn k - qn j) * (1 # 2)).
Definition d_flip := mkDims 3 2 4 1.
Definition I_pair := real q_pair. Definition T_none := reala t_none.
Definition Y_flip := sft_real (fun _ _ => 0) (fun _ _ _ _ => 0) (fun _ _ _ _ => 0) y_flip no6 no6.
Local Close Scope Q_scope.
CASES
Lemma flip_ok : shape d_flip 5 /\\ exchangeable I_pair /\\ antisym_amps T_none /\\ same_amps d_flip (ccsd_resid d_flip (fock_ints 3 4 I_pair) T_none) zero_amps.
Proof.
  split; [now split|]. split; [split; intros p q r s; cbn [I_pair q_pair real w_aa w_bb q_aa q_bb]; unfold e_pair; destruct (p =? r)%nat, (q =? s)%nat, (p =? 0)%nat, (q =? 4)%nat, (p =? 4)%nat, (q =? 0)%nat; reflexivity|].
  split; [constructor; intros; cbn [T_none reala x_aa x_ab x_bb x_aaa x_aab x_abb x_bbb t_none qt_aa qt_bb]; rewrite ?q0; ring|].
  apply (qres_ok d_flip q_pair t_none). vm_compute. reflexivity.
Qed.
Lemma flip_anti : sft_anti Y_flip.
Proof. unfold sft_anti. repeat match goal with |- _ /\\ _ => split end; intros; cbn [Y_flip sft_real SFB]; rewrite <- Q2R_opp; apply Qeq_eqR; unfold no6, y_flip; ring. Qed.
Lemma flip_code : sft_root d_flip (sft_HR d_flip (hbar_ccsd d_flip (fock_ints 3 4 I_pair) T_none) T_none Y_flip) Y_flip (7 / 3).
Proof. replace (7 / 3) with (Q2R (7 # 3)) by (unfold Q2R; cbn; lra). apply (sft_case d_flip q_pair t_none). vm_compute. reflexivity. Qed.
Lemma flip_right : sft_root d_flip (sfx_HR d_flip (hbar_ccsd d_flip (fock_ints 3 4 I_pair) T_none) T_none Y_flip) Y_flip 2.
Proof. replace 2 with (Q2R 2) by (unfold Q2R; cbn; lra). apply (sfx_case d_flip q_pair t_none). vm_compute. reflexivity. Qed.
Example C78_instance : shape d_flip 5 /\\ exchangeable I_pair /\\ antisym_amps T_none /\\ same_amps d_flip (ccsd_resid d_flip (fock_ints 3 4 I_pair) T_none) zero_amps /\\ sft_anti Y_flip /\\
  sft_aab Y_flip 0%nat 1%nat 0%nat 0%nat 1%nat 2%nat = 1 /\\ sft_root d_flip (sfx_HR d_flip (hbar_ccsd d_flip (fock_ints 3 4 I_pair) T_none) T_none Y_flip) Y_flip 2.
Proof. destruct flip_ok as (A & B & C & D). split; [exact A|]. split; [exact B|]. split; [exact C|]. split; [exact D|]. split; [exact flip_anti|]. split; [unfold Y_flip; cbn; unfold Q2R; cbn; lra|exact flip_right]. Qed.
(** A root of the program that is not a solution, with the same integrals for both spins, a converged ground state and a non-zero vector; and the same vector solves the equation with another energy *)
Theorem C78_refuted : exists d I T Y n m w w', shape d n /\\ exchangeable I /\\ antisym_amps T /\\ sft_anti Y /\\ (noa d + nob d + 4 <= m)%nat /\\
  h_a I = h_b I /\\ w_aa I = w_ab I /\\ w_bb I = w_ab I /\\ sft_aab Y 0%nat 1%nat 0%nat 0%nat 1%nat 2%nat = 1 /\\
  let H := fock_ints (noa d) (nob d) I in
  let E := scf_energy (noa d) (nob d) I + cc_energy d H T in
  same_amps d (ccsd_resid d H T) zero_amps /\\ sft_root d (sft_HR d (hbar_ccsd d H T) T Y) Y w /\\
  ~ solves_on (sft_space d n) n I (E + w) (sft_op d Y (cc_state d T m)) /\\ solves_on (sft_space d n) n I (E + w') (sft_op d Y (cc_state d T m)).
Proof.
  destruct flip_ok as (A & B & C & D). exists d_flip, I_pair, T_none, Y_flip, 5%nat, 11%nat, (7 / 3), 2.
  assert (Y1 : sft_aab Y_flip 0%nat 1%nat 0%nat 0%nat 1%nat 2%nat = 1) by (unfold Y_flip; cbn; unfold Q2R; cbn; lra).
  assert (L := fun w => C78_corrected d_flip I_pair T_none Y_flip 5 11 w A B C flip_anti (le_n 11) D).
  split; [exact A|]. split; [exact B|]. split; [exact C|]. split; [exact flip_anti|]. split; [cbn; lia|]. split; [reflexivity|]. split; [reflexivity|]. split; [reflexivity|]. split; [exact Y1|].
  cbv zeta. split; [exact D|]. split; [exact flip_code|]. split; [|apply (proj1 (L 2)); exact flip_right].
  intros S. apply (proj2 (L (7 / 3))) in S. destruct S as (_ & _ & _ & S & _). destruct flip_right as (_ & _ & _ & G & _).
  specialize (S 0%nat 1%nat 0%nat 0%nat 1%nat 2%nat). specialize (G 0%nat 1%nat 0%nat 0%nat 1%nat 2%nat). rewrite Y1 in S, G. assert (Z1 := eq_trans (eq_sym (G (ltac:(cbn; lia)) (ltac:(cbn; lia)) (ltac:(cbn; lia)) (ltac:(cbn; lia)) (ltac:(cbn; lia)) (ltac:(cbn; lia)))) (S (ltac:(cbn; lia)) (ltac:(cbn; lia)) (ltac:(cbn; lia)) (ltac:(cbn; lia)) (ltac:(cbn; lia)) (ltac:(cbn; lia)))). lra.
Qed.

Print Assumptions C78_doubles.
Print Assumptions C78_corrected.
Print Assumptions C78_antisym.
Print Assumptions C78_refuted.
'''
o=o.replace('RS_',RS).replace('SFB',' '.join('sft_'+b for b in bl))
# tails from the code's own definitions
src=open('/verif/rocq/theories/Sector3Model.v').read(); defs.clear()
for mm in re.finditer(r'Definition (\w+) \(d : dims\) \(H : ints\) \(T : amps\) \(R : \w+\) : \w+ := (?:fun ([\w ]+) =>)?\n?(.*?)\.\n',src,re.S): defs[mm.group(1)]=mm.group(3)
HR=re.findall(r'\((\w+) d H T R\)',re.search(r'Definition sft_HR .*?:= mk\w+ (.*)\.\n',src).group(1))
o=o.replace('TAILS',', '.join(x for nm in HR for x in tail(nm)))
c=open('/verif/rocq/theories/Sector3Cases.v').read()
i=c.index('Definition sft_check'); j=c.index('Qed.',c.index('Lemma sft_case'))+4
cs=c[i:j].replace('sft_check','sfx_check').replace('sft_case','sfx_case').replace('s_sft_','s_sfx_').replace('sft_HR','sfx_HR')
o=o.replace('CASES','Local Open Scope Q_scope.\n'+cs+'\nLocal Close Scope Q_scope.')
open('/verif/rocq/theories/SpinFlip3Props.v','w').write(o)
