"""Generate CrccPoly.v: the CCSDT residual at T3 = 0, its part linear in T3 paired with the left amplitudes, and its diagonal part, against CrccModel.v."""
import sys
sys.path.insert(0, "/verif/tools")
from gen_crdiag import *
from gen_crcc import *
BL = ["a", "b", "aa", "ab", "bb"]
B3 = ["aaa", "aab", "abb", "bbb"]
VC, OC = {"a": 1, "b": 3}, {"a": 0, "b": 2}
VD, OD = {"a": "nua d", "b": "nub d"}, {"a": "noa d", "b": "nob d"}
W = {"a": 1, "b": 1, "aa": 4, "ab": 1, "bb": 4, "aaa": 36, "aab": 4, "abb": 4, "bbb": 36}
def esum(b, body, w):
    n = len(b)
    for x in reversed(range(2 * n)): body = f"(ESum {x} {VC[b[x]] if x < n else OC[b[x - n]]} {body})"
    return body if w == 1 else f"(EScale 1 {w} {body})"
def rsum(b, body, w):
    n = len(b); ls = "abc"[:n] + "ijk"[:n]
    for x in reversed(range(2 * n)): body = f"sumn ({VD[b[x]] if x < n else OD[b[x - n]]}) (fun {ls[x]} => {body})"
    return body if w == 1 else f"1 / {w} * {body}"
def chain(l):
    t = l[0]
    for x in l[1:]: t = f"(EAdd {t} {x})"
    return t
IX = "0 1 2 3 4 5"
t = """(** Generated by tools/gen_crpoly.py: the residual of the CCSDT equations without triples, the part of it linear in the triples paired with left
    amplitudes, and the part diagonal in one block of triples, against the moments, left amplitudes and denominators of CrccModel.v (proof support). *)
From Coq Require Import Reals Arith NArith List Bool Lia Lra QArith Qreals ZArith FunctionalExtensionality.
From Verif Require Import RSum IntegralsModel TensorObjs TensorAlg TensorSpec FockSpec FockArrays FockCcSpec FockTerms FockHam FockExp FockLevel FockCheck FockState FockNear FockProj FockSector FockSectorTools FockSector3 CcsdModel FockDress FockShift FockTools3 CcsdtModel CcsdtUpdate CcsdtReify SdtSpec SdtFock CrccModel CrccReify.
Import ListNotations.
Local Open Scope nat_scope.
(** An expression with the arrays p set to zero, and the rest *)
Fixpoint killp (p : nat -> bool) (e : ex) : ex :=
  match e with
  | EC n d => EC n d
  | ET k ix => if p k then EC 0 1 else e
  | EAdd a b => let a := killp p a in let b := killp p b in if isz a then b else if isz b then a else EAdd a b
  | ESub a b => let a := killp p a in let b := killp p b in if isz b then a else if isz a then EOpp b else ESub a b
  | EOpp a => let a := killp p a in if isz a then EC 0 1 else EOpp a
  | EMul a b => let a := killp p a in let b := killp p b in if isz a then EC 0 1 else if isz b then EC 0 1 else EMul a b
  | EScale n d a => let a := killp p a in if isz a then EC 0 1 else EScale n d a
  | ESum x d a => let a := killp p a in if isz a then EC 0 1 else ESum x d a
  end.
Definition zadd a b := if isz a then b else if isz b then a else EAdd a b.
Definition zmul a b := if isz a then EC 0 1 else if isz b then EC 0 1 else EMul a b.
Fixpoint dif (p : nat -> bool) (e : ex) : ex :=
  match e with
  | EC n d => EC 0 1
  | ET k ix => if p k then e else EC 0 1
  | EAdd a b => zadd (dif p a) (dif p b)
  | ESub a b => let a := dif p a in let b := dif p b in if isz b then a else if isz a then EOpp b else ESub a b
  | EOpp a => let a := dif p a in if isz a then EC 0 1 else EOpp a
  | EMul a b => zadd (zmul (dif p a) b) (zmul (killp p a) (dif p b))
  | EScale n d a => let a := dif p a in if isz a then EC 0 1 else EScale n d a
  | ESum x d a => let a := dif p a in if isz a then EC 0 1 else ESum x d a
  end.
Local Open Scope R_scope.
Lemma killp_ok dim ten ten' p e : (forall k ix, p k = true -> ten' k ix = 0) -> (forall k ix, p k = false -> ten' k ix = ten k ix) -> forall v, den dim ten (killp p e) v = den dim ten' e v.
Proof.
  intros Z E. induction e as [n d|k ix|a IHa b IHb|a IHa b IHb|a IHa|a IHa b IHb|n d a IHa|x d a IHa]; intros v; cbn [killp]; cbv zeta.
  - reflexivity.
  - destruct (p k) eqn:P; [rewrite den_zero|]; cbn [den]; [now rewrite Z|now rewrite E].
  - destruct (isz (killp p a)) eqn:A; [|destruct (isz (killp p b)) eqn:B]; cbn [den]; rewrite <- ?IHa, <- ?IHb; [rewrite (isz_ok dim ten _ v A)|rewrite (isz_ok dim ten _ v B)|]; ring.
  - destruct (isz (killp p b)) eqn:B; [|destruct (isz (killp p a)) eqn:A]; cbn [den]; rewrite <- ?IHa, <- ?IHb; [rewrite (isz_ok dim ten _ v B)|rewrite (isz_ok dim ten _ v A)|]; ring.
  - destruct (isz (killp p a)) eqn:A; [rewrite den_zero|]; cbn [den]; rewrite <- ?IHa; [rewrite (isz_ok dim ten _ v A)|]; ring.
  - destruct (isz (killp p a)) eqn:A; [rewrite den_zero|destruct (isz (killp p b)) eqn:B; [rewrite den_zero|]]; cbn [den]; rewrite <- ?IHa, <- ?IHb; [rewrite (isz_ok dim ten _ v A)|rewrite (isz_ok dim ten _ v B)|]; ring.
  - destruct (isz (killp p a)) eqn:A; [rewrite den_zero|]; cbn [den]; rewrite <- ?IHa; [rewrite (isz_ok dim ten _ v A)|]; ring.
  - destruct (isz (killp p a)) eqn:A; [rewrite den_zero|]; cbn [den]; [symmetry; apply sumn_0|apply sumn_ext]; intros i _; rewrite <- ?IHa; [apply (isz_ok dim ten _ _ A)|reflexivity].
Qed.
Lemma zadd_ok dim ten a b v : den dim ten (zadd a b) v = den dim ten a v + den dim ten b v.
Proof. unfold zadd. destruct (isz a) eqn:A; [rewrite (isz_ok dim ten _ v A); ring|]. destruct (isz b) eqn:B; [rewrite (isz_ok dim ten _ v B); ring|]. reflexivity. Qed.
Lemma zmul_ok dim ten a b v : den dim ten (zmul a b) v = den dim ten a v * den dim ten b v.
Proof. unfold zmul. destruct (isz a) eqn:A; [rewrite den_zero, (isz_ok dim ten _ v A); ring|]. destruct (isz b) eqn:B; [rewrite den_zero, (isz_ok dim ten _ v B); ring|]. reflexivity. Qed.
Lemma dif_ok dim ten p e : forall v, den dim ten (dif p e) v = den dim ten e v - den dim ten (killp p e) v.
Proof.
  set (ten' := fun k ix => if p k then 0 else ten k ix).
  assert (KK : forall e v, den dim ten (killp p e) v = den dim ten' e v) by (intros e0 v0; apply killp_ok; unfold ten'; intros k ix P; now rewrite P).
  induction e as [n d|k ix|a IHa b IHb|a IHa b IHb|a IHa|a IHa b IHb|n d a IHa|x d a IHa]; intros v; rewrite KK; cbn [dif]; cbv zeta.
  - rewrite den_zero. cbn [den]. ring.
  - unfold ten'. cbn [den]. destruct (p k); [cbn [den]|rewrite den_zero]; ring.
  - rewrite zadd_ok, IHa, IHb, !KK. cbn [den]. ring.
  - specialize (IHa v). specialize (IHb v). rewrite KK in IHa, IHb. destruct (isz (dif p b)) eqn:B; [|destruct (isz (dif p a)) eqn:A]; cbn [den]; [rewrite (isz_ok dim ten _ v B) in IHb|rewrite (isz_ok dim ten _ v A) in IHa|]; lra.
  - specialize (IHa v). rewrite KK in IHa. destruct (isz (dif p a)) eqn:A; [rewrite den_zero, (isz_ok dim ten _ v A) in *|]; cbn [den]; lra.
  - rewrite zadd_ok, !zmul_ok, IHa, IHb, !KK. cbn [den]. ring.
  - specialize (IHa v). rewrite KK in IHa. cbn [den]. destruct (isz (dif p a)) eqn:A; [rewrite den_zero, (isz_ok dim ten _ v A) in *; replace (den dim ten a v) with (den dim ten' a v) by lra|cbn [den]; rewrite IHa]; ring.
  - cbn [den]. rewrite <- sumn_minus. destruct (isz (dif p a)) eqn:A; [rewrite den_zero; symmetry; apply sumn_0|cbn [den]; apply sumn_ext]; intros i _; specialize (IHa (upd v x i)); rewrite KK in IHa; [rewrite (isz_ok dim ten _ _ A) in IHa|]; lra.
Qed.
Local Open Scope nat_scope.
Definition no3 (k : nat) : bool := (5 <=? k) && (k <? 9).
Definition no1 (k : nat) : bool := k <? 2.
Definition no13 (k : nat) : bool := (k <? 2) || ((5 <=? k) && (k <? 9)).
Definition crcc_own : list (nat * (nat * list nat * bool)) := [(68, (68, [0; 1; 3; 2], false)); (68, (68, [1; 0; 2; 3], false)); (70, (70, [0; 1; 3; 2], false)); (70, (70, [1; 0; 2; 3], false))].
Definition crcc_gens := fock_gens ++ (sdt_own ++ crcc_own).
Definition crcc_tab := Eval vm_compute in symtab crcc_gens 71.
Lemma crcc_htab : crcc_tab = symtab crcc_gens 71. Proof. vm_compute. reflexivity. Qed.
"""
P = Prog("crdia_", "(d : dims) (H : ints) (T : amps)", "d H T")
for b in B3: P.define(b, Arr(amp_axes(b), lambda ix, used, b=b: expr(b, f"x_{b} T"), list("abcijk")), f"The part of the triples equations diagonal in the block {b}")
Q, hb = hbar()
R = Reify(); R.alias = {"U": "T", "H0": "H0"}
fock_ids(R)
for k, b in enumerate(BL): assert R.tid(f"x_{b} L", 2 * len(b)) == 66 + k
R.add(Q, tag="k_")
sub = {}
for b in BLK1 + BLK2:
    s, xy = b.split("_")
    nm = hb.get(s).get(xy).name
    if nm.startswith("hb_"): sub[f"i_{b} H"] = "k_" + nm.split(" ")[0]
n0 = len(R.out)
R.add(P, subst=sub, tag="k_")
t += "Local Open Scope R_scope.\n" + P.text() + "\nLocal Open Scope nat_scope.\n" + "\n".join(R.out[n0:]) + "\n"
lhs = chain([esum(b, f"(EMul (ET {66 + k} [{'; '.join(str(x) for x in range(2 * len(b)))}]) (e_sdt_{b} {' '.join(str(x) for x in range(2 * len(b)))}))", W[b]) for k, b in enumerate(BL)])
rhs = chain([esum(b, f"(EMul (ET {5 + k} [{IX.replace(' ', '; ')}]) (k_crcc_L_{b} 10 {IX}))", W[b]) for k, b in enumerate(B3)])
t += f"Definition pair_lhs : ex := {lhs}.\nDefinition pair_rhs : ex := {rhs}.\n"
ST = "same_tab crcc_tab (fun x => x) [0; 1; 2; 3]"
t += f"Lemma chk_pair : {ST} (killp no1 (dif no3 pair_lhs)) (killp no1 pair_rhs) = true. Proof. vm_compute. reflexivity. Qed.\n"
for k, b in enumerate(B3):
    t += f"Lemma chk_M_{b} : {ST} (killp no13 (e_sdt_{b} {IX})) (killp no13 (k_crcc_M_{b} 10 {IX})) = true. Proof. vm_compute. reflexivity. Qed.\n"
    oth = " || ".join(f"(k =? {5 + j})" for j in range(4) if j != k)
    t += f"Definition only_{b} (k : nat) : bool := (k <? 2) || {oth}.\n"
    t += f"Lemma chk_D_{b} : {ST} (killp only_{b} (dif no3 (e_sdt_{b} {IX}))) (killp no1 (k_crdia_{b} 10 {IX})) = true. Proof. vm_compute. reflexivity. Qed.\n"
def swaps(b):
    r = []
    for off in (0, 3):
        for p in (0, 1):
            if b[p] == b[p + 1]:
                q = list(range(6)); q[off + p], q[off + p + 1] = q[off + p + 1], q[off + p]; r.append(q)
    return r
for b in B3:
    for n, q in enumerate(swaps(b)):
        t += f"Lemma chk_A_{b}{n} : {ST} (killp no13 (k_crcc_L_{b} 10 {IX})) (EOpp (killp no13 (k_crcc_L_{b} 10 {' '.join(map(str, q))}))) = true. Proof. vm_compute. reflexivity. Qed.\n"
t += """Local Open Scope R_scope.
(** The amplitudes without triples *)
Definition plain (T : amps) : amps := mkAmps (x_a T) (x_b T) (x_aa T) (x_ab T) (x_bb T) (fun _ _ _ _ _ _ => 0) (fun _ _ _ _ _ _ => 0) (fun _ _ _ _ _ _ => 0) (fun _ _ _ _ _ _ => 0).
(** Left amplitudes against singles and doubles, and triples against left triples *)
Definition left_pair (d : dims) (L X : amps) : R :=
  """ + " + ".join("(" + rsum(b, f"x_{b} L {' '.join('abc'[:len(b)] + 'ijk'[:len(b)])} * x_{b} X {' '.join('abc'[:len(b)] + 'ijk'[:len(b)])}", W[b]) + ")" for b in BL) + """.
Definition right_pair (d : dims) (Y : amps) (La Lb Lc Ld : mat6) : R :=
  """ + " + ".join("(" + rsum(b, f"x_{b} Y a b c i j k * {l} a b c i j k", W[b]) + ")" for b, l in zip(B3, ["La", "Lb", "Lc", "Ld"])) + """.
Section P.
Variables (d : dims) (I : integrals) (T0 L : amps) (H0 : ints).
Hypothesis HI : exchangeable I.
Hypothesis HT : antisym_amps T0.
Hypothesis HY : triples_anti T0.
Hypothesis HL : antisym_amps L.
Notation T := (bare T0).
Notation H := (fock_ints (noa d) (nob d) I).
Notation LS := [ap2 (x_a L); ap2 (x_b L); ap4 (x_aa L); ap4 (x_ab L); ap4 (x_bb L)].
Notation ten := (tenv (fock_arrays H T ++ LS)).
Notation ten0 := (tenv (fock_arrays H (plain T) ++ LS)).
Notation dn e v := (den (fdim d) ten e v).
Notation dn0 e v := (den (fdim d) ten0 e v).
Lemma crcc_syms : Forall (fun g => okalt ten (fst g) (snd g)) crcc_gens.
Proof.
  apply sector_syms; [exact (fock_ints_antisym _ _ _ HI)|exact (bare_anti _ HT)|]. destruct HY as (A0 & A1 & A2 & A3 & A4 & A5 & A6 & A7 & A8 & A9 & A10 & A11). destruct HL as [Z0 Z1 Z2 Z3].
  """ + " ".join(f"apply Forall_cons; [okswap6 A{k}|]." for k in range(12)) + """
  apply Forall_cons; [okswap Z1|]. apply Forall_cons; [okswap Z0|]. apply Forall_cons; [okswap Z3|]. apply Forall_cons; [okswap Z2|]. apply Forall_nil.
Qed.
Ltac nil2 ix := destruct ix as [|? [|? [|]]]; reflexivity.
Ltac nil6 ix := do 7 (destruct ix as [|? ix]; [reflexivity|]); reflexivity.
Lemma t0_zero k ix : no13 k = true -> ten0 k ix = 0.
Proof.
  destruct k as [|[|[|[|[|[|[|[|[|k]]]]]]]]]; intros E; try discriminate E; unfold tenv; cbn [nth app fock_arrays plain bare x_a x_b x_aaa x_aab x_abb x_bbb]; [nil2 ix|nil2 ix|nil6 ix..].
Qed.
Lemma t0_off k ix : no3 k = false -> ten0 k ix = ten k ix.
Proof. destruct k as [|[|[|[|[|[|[|[|[|k]]]]]]]]]; intros E; try discriminate E; reflexivity. Qed.
Lemma t_one k ix : no1 k = true -> ten k ix = 0.
Proof. destruct k as [|[|k]]; intros E; try discriminate E; unfold tenv; cbn [nth app fock_arrays bare x_a x_b]; nil2 ix. Qed.
Lemma k13 e v : dn (killp no13 e) v = dn0 e v.
Proof. apply killp_ok; [apply t0_zero|]. intros k ix E. apply t0_off. unfold no3, no13 in *. apply orb_false_elim in E. tauto. Qed.
Lemma k3 e v : dn (killp no3 e) v = dn0 e v.
Proof. apply killp_ok; [|apply t0_off]. intros k ix E. apply t0_zero. unfold no3, no13 in *. rewrite E. apply orb_true_r. Qed.
Lemma k1 e v : dn (killp no1 e) v = dn e v.
Proof. apply killp_ok; [apply t_one|reflexivity]. Qed.
Lemma st a b : same_tab crcc_tab (fun x => x) [0; 1; 2; 3]%nat a b = true -> forall v, dn a v = dn b v.
Proof. intros K v. exact (same_tab_sound (fdim d) ten crcc_gens 71 crcc_tab (fun x => x) _ a b crcc_htab (fun _ => eq_refl) crcc_syms K v). Qed.
Notation X := (ccsdt_resid d H T).
Notation X0 := (ccsdt_resid d H (plain T)).
Notation HB := (hbar_ccsd d H T).
"""
g = "d H0 HB T L"
for b in B3:
    v = "(venv [a; b; c; i; j; k])"
    t += f"Lemma poly_M_{b} a b c i j k : x_{b} X0 a b c i j k = crcc_M_{b} {g} a b c i j k.\nProof. change (dn0 (e_sdt_{b} {IX}) {v} = dn0 (k_crcc_M_{b} 10 {IX}) {v}). rewrite <- !k13. apply st, chk_M_{b}. Qed.\n"
    for n, q in enumerate(swaps(b)):
        z = " ".join("abcijk"[x] for x in q)
        t += f"Lemma poly_A_{b}{n} a b c i j k : crcc_L_{b} {g} a b c i j k = - crcc_L_{b} {g} {z}.\nProof. change (dn0 (k_crcc_L_{b} 10 {IX}) {v} = - dn0 (k_crcc_L_{b} 10 {' '.join(map(str, q))}) {v}). rewrite <- !k13. exact (st _ _ chk_A_{b}{n} {v}). Qed.\n"
    o = [x for x in B3 if x != b]
    t += f"Lemma poly_D_{b} a b c i j k : " + " -> ".join(f"(forall a b c i j k, x_{x} T0 a b c i j k = 0)" for x in o) + f" ->\n  x_{b} X a b c i j k - x_{b} X0 a b c i j k = crdia_{b} d HB T a b c i j k.\n"
    t += f"Proof.\n  intros Z1 Z2 Z3. change (dn (e_sdt_{b} {IX}) {v} - dn0 (e_sdt_{b} {IX}) {v} = dn (k_crdia_{b} 10 {IX}) {v}). rewrite <- k3, <- dif_ok, <- (k1 (k_crdia_{b} 10 {IX})).\n"
    t += f"  rewrite <- (st _ _ chk_D_{b} {v}). symmetry. apply killp_ok; [|reflexivity]. intros k0 ix E. destruct k0 as [|[|[|[|[|[|[|[|[|k0]]]]]]]]]; try discriminate E; unfold tenv; cbn [nth app fock_arrays bare x_a x_b x_aaa x_aab x_abb x_bbb]; [nil2 ix|nil2 ix|zero6 ix Z1|zero6 ix Z2|zero6 ix Z3].\nQed.\n"
t = t.replace("Lemma t0_zero", "Ltac zero6 ix Z := do 6 (destruct ix as [|? ix]; [reflexivity|]); destruct ix as [|? ix]; [apply Z|reflexivity].\nLemma t0_zero", 1)
t += f"""Lemma poly_pair : left_pair d L X - left_pair d L X0 = right_pair d T0 {' '.join(f'(crcc_L_{b} {g})' for b in B3)}.
Proof.
  change (dn pair_lhs (venv []) - dn0 pair_lhs (venv []) = dn pair_rhs (venv [])). rewrite <- k3, <- dif_ok, <- (k1 (dif no3 pair_lhs)), <- (k1 pair_rhs). apply st, chk_pair.
Qed.
End P.
"""
open((sys.argv[1] if len(sys.argv) > 1 else "/verif/rocq/theories/") + "CrccPoly.v", "w").write(t)
