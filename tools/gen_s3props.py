import re
src=open('/verif/rocq/theories/Sector3Model.v').read()
defs={}
for mm in re.finditer(r'Definition (\w+) \(d : dims\) \(H : ints\) \(T : amps\) \(R : \w+\) : \w+ := (?:fun ([\w ]+) =>)?\n?(.*?)\.\n',src,re.S):
    defs[mm.group(1)]=mm.group(3)
def tail(nm):
    out=[]
    while nm in defs and 'sumn' not in defs[nm]:
        out.append(nm)
        r=re.findall(r'(\w+) d H T R',defs[nm])
        if len(set(r))!=1: break
        nm=r[0]
    return out
B={'ipt':['a','aa','ab','aaa','aab','abb'],'eat':['a','aa','ab','aaa','aab','abb'],'dipq':['ab','aba','abb','abaa','abab','abbb'],'deaq':['ab','aba','abb','abaa','abab','abbb']}
HR={m:re.search(r'Definition %s_HR .*?:= mk\w+ (.*)\.\n'%m,src).group(1) for m in B}
HR={m:re.findall(r'\((\w+) d H T R\)',s) for m,s in HR.items()}
T={'ipt':('C74','IP-EOMCC with 3h2p operators: one alpha electron removed, up to three holes and two particles'),'eat':('C75','EA-EOMCC with 3p2h operators: one alpha electron attached, up to three particles and two holes'),
 'dipq':('C76','DIP-EOMCC with 4h2p operators: an alpha and a beta electron removed, up to four holes and two particles'),'deaq':('C77','DEA-EOMCC with 4p2h operators: an alpha and a beta electron attached, up to four particles and two holes')}
o='''(** Three-body and four-body operators of the equation-of-motion methods against second quantisation.  The single excitations are moved into the Hamiltonian:
    H exp(T1) = exp(T1) H~ with H~ built from dressed integrals (C73), and every block of the similarity-transformed Hamiltonian depends on T1 through H~ only.
    The sigma vectors of IP-EOMCC(3h2p), EA-EOMCC(3p2h), DIP-EOMCC(4h2p) and DEA-EOMCC(4p2h) are then those of R exp(T) |ref> in the Schroedinger equation
    of FockSpec.v on the determinants counted in RankSpec.v (C74-C77). *)
From Coq Require Import Reals Arith NArith List Bool Lia Lra QArith Qreals FunctionalExtensionality.
From Verif Require Import RSum IntegralsModel TensorObjs TensorAlg TensorSpec CcsdModel CcsdUpdate CcsdProps FockSpec FockCar FockWick FockCcSpec FockExp FockLevel FockState FockNear FockProj FockProps FockSector FockSectorSpec FockSectorTools SectorProps
  RankSpec FockCount FockDress FockShift Sector3Model Sector3Spec FockSpaces3 SectorIptFock SectorEatFock SectorDipqFock SectorDeaqFock HbarSpec HbarBlocks Sector3Skel QEval Sector3Cases.
Import ListNotations.
Local Open Scope R_scope.

(** * C73: dressed integrals *)
(** Amplitudes without double and triple (single) excitations *)
Definition singles (T : amps) : amps := mkAmps (x_a T) (x_b T) (fun _ _ _ _ => 0) (fun _ _ _ _ => 0) (fun _ _ _ _ => 0) (x_aaa T) (x_aab T) (x_abb T) (x_bbb T).
Lemma singles_ones d T : cluster_sd d (singles T) = ones d T.
Proof.
  apply functional_extensionality; intros psi. apply functional_extensionality; intros D. unfold cluster_sd, singles. cbn [x_a x_b x_aa x_ab x_bb]. unfold double_op.
  rewrite !(sumn_0 (nua d)), !(sumn_0 (nub d)) by (intros; repeat (apply sumn_0; intros); ring). unfold ones, X_a, X_b. ring.
Qed.
(** exp(-T1) H exp(T1) is the Hamiltonian with dressed integrals *)
Theorem C73_dressed d I T n m psi : shape d n -> (noa d + nob d < m)%nat ->
  hamiltonian n I (expo (cluster_sd d (singles T)) m psi) = expo (cluster_sd d (singles T)) m (hamiltonian n (dressed d T I) psi).
Proof. intros (E1 & E2) Hm. rewrite singles_ones. now apply ham_EX. Qed.
(** Every block of the similarity-transformed Hamiltonian of the program depends on T1 through the dressed integrals *)
Theorem C73_hbar d I T : exchangeable I -> antisym_amps T ->
  ints_agree d (hbar_ccsd d (fock_ints (noa d) (nob d) I) T) (hbar_ccsd d (fock_ints (noa d) (nob d) (dressed d T I)) (bare T)).
Proof. intros HI HT. now apply hbar_agree. Qed.
(** So do the total energy and the CCSD equations *)
Theorem C73_energy d I T n : shape d n -> exchangeable I -> antisym_amps T ->
  scf_energy (noa d) (nob d) (dressed d T I) + cc_energy d (fock_ints (noa d) (nob d) (dressed d T I)) (bare T) = scf_energy (noa d) (nob d) I + cc_energy d (fock_ints (noa d) (nob d) I) T.
Proof. intros (E1 & E2) HI HT. apply (energy_shift d I T n (noa d + nob d + 4)); (assumption || lia). Qed.
Theorem C73_residual d I T n : shape d n -> exchangeable I -> antisym_amps T ->
  (same_amps d (ccsd_resid d (fock_ints (noa d) (nob d) I) T) zero_amps <-> same_amps d (ccsd_resid d (fock_ints (noa d) (nob d) (dressed d T I)) (bare T)) zero_amps).
Proof. intros (E1 & E2) HI HT. apply (resid_shift d I T n (noa d + nob d + 4)); (assumption || lia). Qed.

(** * The argument common to the four methods *)
Lemma through d I T n m (Q : state -> state) P w E' (root root' : Prop) : shape d n -> exchangeable I -> antisym_amps T -> (noa d + nob d + 4 <= m)%nat ->
  downward d n P -> linear Q -> commute Q (ones d T) ->
  same_amps d (ccsd_resid d (fock_ints (noa d) (nob d) I) T) zero_amps ->
  E' = scf_energy (noa d) (nob d) I + cc_energy d (fock_ints (noa d) (nob d) I) T -> (root <-> root') ->
  (same_amps d (ccsd_resid d (fock_ints (noa d) (nob d) (dressed d T I)) (bare T)) zero_amps ->
   (solves_on P n (dressed d T I) (scf_energy (noa d) (nob d) (dressed d T I) + cc_energy d (fock_ints (noa d) (nob d) (dressed d T I)) (bare T) + w) (Q (cc_state d (bare T) m)) <-> root')) ->
  (root <-> solves_on P n I (E' + w) (Q (cc_state d T m))).
Proof.
  intros (E1 & E2) HI HT Hm HP HL HC HR EE RR K. rewrite RR. rewrite (solves_shift d I T n m E1 E2) by (assumption || lia).
  rewrite (resid_shift d I T n m) in HR by (assumption || lia). rewrite (energy_shift d I T n m) in K by (assumption || lia). rewrite EE. symmetry. now apply K.
Qed.
'''
for m,(c,title) in T.items():
    M=m.capitalize()
    ths=''
    o+=f'''
(** * {title} *)
Lemma {m}_op_linear d Y : linear ({m}_op d Y).
Proof. replace ({m}_op d Y) with (psem (noa d) (nob d) (fdim d) (tenv (fock_arrays (fock_ints (noa d) (nob d) zero_integrals) (bare zero_amps) ++ {{RS_{m}}})) {m}_rts (venv [])) by (apply functional_extensionality; intros phi; apply ({m}_op_ok d zero_integrals zero_amps Y)). apply psem_linear. Qed.
Lemma {m}_op_commute d Y T : commute ({m}_op d Y) (ones d T).
Proof.
  replace ({m}_op d Y) with (psem (noa d) (nob d) (fdim d) (tenv (fock_arrays (fock_ints (noa d) (nob d) zero_integrals) (bare zero_amps) ++ {{RS_{m}}})) {m}_rts (venv [])) by (apply functional_extensionality; intros phi; apply ({m}_op_ok d zero_integrals zero_amps Y)).
  apply psem_commute; [reflexivity|reflexivity|vm_compute; reflexivity|apply ones_exc].
Qed.
(** Roots of the program are solutions of the Schroedinger equation on the determinants of the method, with total energy E + w *)
Theorem {c}_schroedinger d I T Y n m w : shape d n -> exchangeable I -> antisym_amps T -> {m}_anti Y -> (noa d + nob d + 4 <= m)%nat ->
  let H := fock_ints (noa d) (nob d) I in
  let E := scf_energy (noa d) (nob d) I + cc_energy d H T in
  same_amps d (ccsd_resid d H T) zero_amps ->
  ({m}_root d ({m}_HR d (hbar_ccsd d H T) T Y) Y w <-> solves_on ({m}_space d n) n I (E + w) ({m}_op d Y (cc_state d T m))).
Proof.
  intros HS HI HT HY Hm H E HR.
  apply (through d I T n m ({m}_op d Y) ({m}_space d n) w E _ ({m}_root d ({m}_HR d (hbar_ccsd d (fock_ints (noa d) (nob d) (dressed d T I)) (bare T)) (bare T) Y) Y w)); try assumption.
  - destruct HS as (E1 & E2). now apply sector_downward.
  - apply {m}_op_linear.
  - apply {m}_op_commute.
  - reflexivity.
  - apply {m}_root_same; [now apply hbar_agree|reflexivity..].
  - intros K. destruct HS as (E1 & E2). apply ({m}_solves d (dressed d T I) T Y n m E1 E2); [now apply dressed_exch|exact HT|exact HY|lia|exact K].
Qed.
(** The sigma vector is antisymmetric *)
Theorem {c}_antisym d H T Y : {m}_anti ({m}_HR d H T Y).
Proof. unfold {m}_anti. repeat match goal with |- _ /\\ _ => split end; intros; cbn [{m}_HR {' '.join(m+'_'+b for b in B[m])}]; unfold {', '.join(x for nm in HR[m] for x in tail(nm))}; ring. Qed.
(** From the integrals of the molecule to the root: frozen core, fixed point of the CCSD iteration, similarity-transformed Hamiltonian, sigma vector *)
Theorem {c}_chain e1 e2 s T Y shift w m : (forall p q r t, e2 p q r t = e2 q p t r) -> (s_noa s <= s_norb s)%nat -> (s_nob s <= s_norb s)%nat ->
  antisym_amps T -> {m}_anti Y -> (s_noa s + s_nob s + 4 <= m)%nat ->
  let d := sys_dims s in
  let H := fock_ints (s_noa s) (s_nob s) (valence e1 e2 (s_nf s)) in
  let h p q := h_a (valence e1 e2 (s_nf s)) p q in
  let e p q r t := e2 (s_nf s + p)%nat (s_nf s + q)%nat (s_nf s + r)%nat (s_nf s + t)%nat in
  let phi := {m}_op d Y (cc_state d T m) in
  regular d shift H -> same_amps d (ccsd_iter d shift H T) T ->
  holds H (sort_hamiltonian s (get_hamiltonian e1 e2 s true)) /\\
  ({m}_root d ({m}_HR d (hbar_ccsd d H T) T Y) Y w <->
   forall D, {m}_space d (s_norb s) D ->
     hamiltonian_r (s_norb s) h e phi D = (hf_energy e1 e2 s + cc_energy d H T + w - frozen_core_energy e1 e2 s) * phi D).
Proof.
  intros He Ha Hb HT HY Hm d H h e phi Rg Fx. assert (K := chain_facts e1 e2 s T shift He Ha Hb HT Rg Fx). cbn zeta in K. destruct K as (K1 & K2 & K3 & K4 & K5 & K6).
  split; [exact K1|]. fold h e in K5. rewrite K5. assert (S := {c}_schroedinger _ _ T Y _ m w K2 K3 HT HY Hm K4). cbn zeta in S. etransitivity; [exact S|].
  fold d H in K6. rewrite K6. reflexivity.
Qed.
'''
ar={'ipt':[1,3,3,5,5,5],'eat':[1,3,3,5,5,5],'dipq':[2,4,4,6,6,6],'deaq':[2,4,4,6,6,6]}
for m in B:
    o=o.replace('{RS_%s}'%m,'['+'; '.join(f'ap{a} ({m}_{b} Y)' for a,b in zip(ar[m],B[m]))+']')
o=o.replace('(** * The argument common','Definition zero_integrals : integrals := mkIntegrals (fun _ _ => 0) (fun _ _ => 0) (fun _ _ _ _ => 0) (fun _ _ _ _ => 0) (fun _ _ _ _ => 0).\n(** * The argument common')
o=o.replace('From Verif Require Import RSum IntegralsModel TensorObjs TensorAlg TensorSpec CcsdModel CcsdUpdate CcsdProps FockSpec FockCar FockWick FockCcSpec','From Verif Require Import RSum IntegralsModel TensorObjs TensorAlg TensorSpec CcsdModel CcsdUpdate IntsFix CcsdProps FockSpec FockCar FockWick FockArrays FockTerms FockCcSpec')
o+=open('/verif/tools/s3inst.txt').read()
open('/verif/rocq/theories/Sector3Props.v','w').write(o)
