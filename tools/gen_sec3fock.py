"""Generate Sector3Spec.v, FockSpaces3.v and Sector<M>Fock.v: for each method of gen_sector3.py the operator in second quantisation, the determinants of
the method as strings, the expressions for the components of (H - E - w) R exp(T2) |ref>, the checks by computation and the lemmas that state the
components with the arrays of the program."""
import sys
sys.path.insert(0, "/verif/tools")
from gen_sector3 import METHODS, CLS, DIM, weight3, swaps
from wickgen import *
ORB = {"o": "oa %s", "O": "ob %s", "v": "va d %s", "V": "vb d %s"}
SEC = {"ipt": (1, 0, 0, 0, 3), "eat": (0, 1, 0, 0, 2), "dipq": (1, 0, 1, 0, 4), "deaq": (0, 1, 0, 1, 2), "sft": (1, 0, 0, 1, 3)}
TITLE = {"ipt": "IP (3h2p)", "eat": "EA (3p2h)", "dipq": "DIP (4h2p)", "deaq": "DEA (4p2h)", "sft": "spin-flip (2,3)"}
def names(cls):
    v, o = iter("abce"), iter("ijkl")
    return "".join(next(v) if c in "vV" else next(o) for c in cls)
def show(o): return "[" + "; ".join(f"{'C' if d else 'A'} {CLS[c]} {x}" for d, c, x in o) + "]"
def strv(o, nm): return "[" + "; ".join(f"({'true' if d else 'false'}, {ORB[c] % nm[x]})" for d, c, x in o) + "]"
def bounds(cls, nm): return " -> ".join(f"({x} < {DIM[c]} d)%nat" for x, c in zip(nm, cls))
def conj(l): return " /\\\n  ".join(l)
def spec():
    t = """(** Specification vocabulary, generated by tools/gen_sec3fock.py: the operators R of the equation-of-motion methods with three-body (four-body) amplitudes in
    second quantisation, antisymmetry of the amplitudes and the eigenvalue equation. [oa i], [va d a] are the occupied and unoccupied alpha orbitals, [ob i],
    [vb d a] the beta ones. *)
From Coq Require Import Reals Arith NArith List.
From Verif Require Import RSum IntegralsModel TensorObjs FockSpec FockCcSpec FockSectorSpec RankSpec Sector3Model.
Import ListNotations.
Local Open Scope R_scope.
"""
    for m in METHODS:
        bl = METHODS[m]["blocks"]
        t += f"\n(** {TITLE[m]} *)\n"
        terms = []
        for b, (cls, s) in bl.items():
            nm = names(cls); w = weight3(cls)
            e = "psi"
            for d, c, x in reversed(parse(s, cls)): e = f"{'cre' if d else 'ann'} ({ORB[c] % nm[x]}) " + (e if e == "psi" else f"({e})")
            f = f"{m}_{b} R {' '.join(nm)} * {e} D"
            f = "".join(f"sumn ({DIM[c]} d) (fun {x} => " for x, c in zip(nm, cls)) + f + ")" * len(nm)
            terms.append((f"/ {w} * " if w > 1 else "") + f)
        t += f"Definition {m}_op (d : dims) (R : {m}v) (psi : state) : state := fun D =>\n  " + "\n  + ".join(terms) + ".\n"
        an = []
        for b, (cls, s) in bl.items():
            nm = names(cls)
            for p in swaps(cls): an.append(f"(forall {' '.join(nm)}, {m}_{b} R {' '.join(nm)} = - {m}_{b} R {' '.join(nm[i] for i in p)})")
        t += f"Definition {m}_anti (R : {m}v) : Prop :=\n  " + conj(an) + ".\n"
        t += f"Definition {m}_root (d : dims) (S Y : {m}v) (w : R) : Prop :=\n  " + conj(f"(forall {' '.join(names(c))}, {bounds(c, names(c))} -> {m}_{b} S {' '.join(names(c))} = w * {m}_{b} Y {' '.join(names(c))})" for b, (c, s) in bl.items()) + ".\n"
        ma, pa, mb, pb, L = SEC[m]
        t += f"Definition {m}_space (d : dims) (n : nat) : N -> Prop := sector d n {ma} {pa} {mb} {pb} {L}.\n"
    return t
def lists(cls, nm): return ["[" + "; ".join(x for x, c in zip(nm, cls) if c == k) + "]" if k in cls else "(@nil nat)" for k in "ovOV"]
def flats():
    t = """(** Generated by tools/gen_sec3fock.py: the determinants of each method as strings on the reference (proof support). *)
From Coq Require Import Reals Arith NArith List Bool Lia.
From Verif Require Import RSum IntegralsModel TensorObjs FockSpec FockCar FockCcSpec FockSectorSpec RankSpec Sector3Model Sector3Spec FockFlip FockCount.
Import ListNotations.
Local Open Scope nat_scope.
Section F.
Variables (d : dims) (n : nat) (W : state).
Hypothesis En : noa d + nua d = n.
Hypothesis En' : nob d + nub d = n.
Notation ref := (reference (noa d) (nob d)).
"""
    for m in METHODS:
        bl = METHODS[m]["blocks"]; nb = len(bl)
        t += f"Lemma {m}_flat : (forall D, {m}_space d n D -> W D = 0%R) <-> (\n  " + conj(
            f"(forall {' '.join(names(c))}, {bounds(c, names(c)).replace('%nat', '')} -> str {strv(adjoint(s, c), names(c))} W ref = 0%R)" for b, (c, s) in bl.items()) + ").\n"
        t += f"Proof.\n  unfold {m}_space. rewrite (sector_flat d n En En'). split.\n"
        t += "  - intros H. " + "split; [|" * (nb - 1) + "]" * (nb - 1) + "; intros.\n"
        for b, (c, s) in bl.items(): t += f"    + down H " + " ".join(lists(c, names(c))) + ".\n"
        t += "  - intros (" + " & ".join(f"F{k}" for k in range(nb)) + ") Ha Pa Hb Pb HW C1 C2 C3. assert (HW' := HW). destruct HW' as ((_ & A1) & (_ & A2) & (_ & A3) & (_ & A4)).\n"
        L = SEC[m][4]
        pat = lambda p, k: "[|" + f"{p}0 " + "".join(f"[|{p}{i} " for i in range(1, k)) + "[|? ?]" + "]" * k
        mx = lambda k: max(c.count(k) for c, s in bl.values())
        t += f"    destruct Ha as {pat('i', mx('o'))}; destruct Hb as {pat('j', mx('O'))}; cbn [length] in C1, C2, C3; try (exfalso; lia);\n"
        t += f"      destruct Pa as {pat('a', mx('v'))}; cbn [length] in C1; try (exfalso; lia); destruct Pb as {pat('b', mx('V'))}; cbn [length] in C2; try (exfalso; lia); cbn [In] in *;\n"
        t += "      lazymatch goal with\n"
        for k, (b, (c, s)) in enumerate(bl.items()):
            nm = names(c)
            l = [x.replace("@nil nat", "@nil nat") if "nil" in x else "[" + "; ".join("?" + y for y in x[1:-1].split("; ")) + "]" for x in lists(c, nm)]
            rng = {"o": "A1", "v": "A2", "O": "A3", "V": "A4"}
            t += f"      | |- context [lst _ {' '.join(l)}] => ups (F{k} {' '.join(nm)} " + " ".join(f"ltac:(apply {rng[x]}; tauto)" for x in c) + ")\n"
        t += "      end.\nQed.\n"
    return t + "End F.\n"
HEAD = """(** Generated by tools/gen_sec3fock.py: components of (H - E - w) R exp(T2) |ref> for the %s operator (proof support). *)
From Coq Require Import Reals Arith NArith List Bool Lia Lra QArith Qreals ZArith FunctionalExtensionality.
From Verif Require Import RSum IntegralsModel TensorObjs TensorAlg TensorSpec CcsdModel CcsdUpdate CcsdReify CcsdProps FockSpec FockCar FockWick FockArrays FockCcSpec FockTerms FockHam FockExp FockLevel FockCheck FockState FockNear FockProj FockSector FockSectorTools
  FockFast FockSectorSpec FockFlip RankSpec FockShift FockSector3 FockTools3 Sector3Model Sector3Spec FockSpaces3 Sector%sReify.
Import ListNotations.
Local Open Scope nat_scope.
"""
ARR = {"t_aa": 2, "t_ab": 3, "t_bb": 4}
def gen(m, only=None):
    bl = METHODS[m]["blocks"]; idx = list(bl); nb = len(bl); M = m.capitalize()
    t = HEAD % (TITLE[m], M)
    ts, g = [], []
    for k, (b, (cls, s)) in enumerate(bl.items()):
        n = len(cls)
        o = [(d, c, 40 + x) for d, c, x in parse(s, cls)]
        ts.append(f"mkTerm (1 # {weight3(cls)}) [{'; '.join(f'({40 + i}, {CLS[c]})' for i, c in enumerate(cls))}] [({66 + k}, [{'; '.join(str(40 + i) for i in range(n))}])] {show(o)}")
        for p in swaps(cls): g.append(f"({66 + k}, ({66 + k}, [{'; '.join(map(str, p))}], false))")
    rmin = min(s.count("~") for _, s in bl.values())
    t += f"Definition {m}_rts : list term := [{'; '.join(ts)}].\n"
    t += f"Definition {m}_own : list (nat * (nat * list nat * bool)) := [{'; '.join(g)}].\nDefinition {m}_gens := fock_gens ++ {m}_own.\n"
    t += f"Definition {m}_tab := Eval vm_compute in symtab {m}_gens {66 + nb}.\nDefinition {m}_rt e := retag (to_sector {nb}) e.\n"
    t += f"Lemma {m}_htab : {m}_tab = symtab {m}_gens {66 + nb}. Proof. vm_compute. reflexivity. Qed.\n"
    t += f"Lemma {m}_rtok : rtok {m}_rts {rmin} = true. Proof. vm_compute. reflexivity. Qed.\n"
    def el(nm, ix):
        i = "; ".join(map(str, ix)); j = " ".join(map(str, ix))
        if nm in ARR: return f"(ET {ARR[nm]} [{i}])"
        h, b = nm.split("_", 1)
        if h == "R": return f"(ET {66 + idx.index(b)} [{i}])"
        if h == "S": return f"({m}_rt (s_{m}_{b} 10 {j}))"
        return f"(rt ({'r_resid_' if b in ('aa', 'bb') else 'r_ccsd_res_'}{b} 10 {j}))"
    def ex(d, at=el, mul="(EMul %s %s)", add="(EAdd %s\n   %s)", sc=None, zero="(EC 0 1)"):
        out = None
        for k, q in d.items():
            e = None
            for nm, ix in k: e = at(nm, ix) if e is None else mul % (e, at(nm, ix))
            if q == 1: s = e
            elif q == -1: s = ("(EOpp %s)" if sc is None else "(- %s)") % e
            else: raise ValueError(q)
            out = s if out is None else add % (out, s)
        return out or zero
    data = {}
    for b, (cls, s) in bl.items():
        bra = adjoint(s, cls)
        c = expand(bra, [[("R_" + x, c_, u)] for x, (c_, u) in bl.items()])
        sg = expand(bra, [[("S_" + x, c_, u)] for x, (c_, u) in bl.items()])
        rq = expand(bra, [[("R_" + x, c_, u), r] for x, (c_, u) in bl.items() for r in RES])
        data[b] = (bra, c, sg, rq)
        t += f"Definition {m}_bra_{b} : list op := {show(bra)}.\nDefinition {m}_ext_{b} : list (nat * nat) := [{'; '.join(f'({i}, {CLS[x]})' for i, x in enumerate(cls))}].\n"
        t += f"Definition {m}_c_{b} := {ex(c)}.\nDefinition {m}_d_{b} := EAdd (EMul f_en {m}_c_{b}) (EAdd {ex(sg)}\n  {ex(rq)}).\n"
        t += f"Lemma {m}_bk_{b} : braok {m}_ext_{b} {m}_bra_{b} = true. Proof. vm_compute. reflexivity. Qed.\n"
        t += f"Lemma {m}_kc_{b} : fock_fast {m}_tab {m}_ext_{b} (eek2 {m}_bra_{b} {m}_rts) {m}_c_{b} = true. Proof. vm_compute. reflexivity. Qed.\n"
        t += f"Lemma {m}_kd_{b} : fock_fast {m}_tab {m}_ext_{b} (hek2 {m}_bra_{b} {m}_rts) (kill {m}_d_{b}) = true. Proof. vm_compute. reflexivity. Qed.\n"
    t += f"""Local Open Scope R_scope.
Section P.
Variables (d : dims) (I : integrals) (T0 : amps) (Y : {m}v) (n m : nat).
Hypothesis En : (noa d + nua d = n)%nat.
Hypothesis En' : (nob d + nub d = n)%nat.
Hypothesis HI : exchangeable I.
Hypothesis HT : antisym_amps T0.
Hypothesis HY : {m}_anti Y.
Hypothesis Hm : (2 <= m)%nat.
Notation T := (bare T0).
Notation H := (fock_ints (noa d) (nob d) I).
Notation ref := (reference (noa d) (nob d)).
Notation psi := (expo (cluster_sd d T) m (pure ref)).
Notation E := (scf_energy (noa d) (nob d) I + cc_energy d H T).
Notation Rs := [{'; '.join(f'ap{len(bl[b][0])} ({m}_{b} Y)' for b in bl)}].
Notation ten := (tenv (fock_arrays H T ++ Rs)).
Notation dn e v := (den (fdim d) ten e v).
Notation X := (ccsd_resid d H T).
Notation Z := ({m}_HR d (hbar_ccsd d H T) T Y).
Definition {m}_defect (w : R) : state := fun D => hamiltonian n I ({m}_op d Y psi) D - (E + w) * {m}_op d Y psi D.
Lemma {m}_op_ok v phi : psem (noa d) (nob d) (fdim d) ten {m}_rts v phi = {m}_op d Y phi.
Proof. opok {m}_rts {m}_op. Qed.
Lemma {m}_syms : Forall (fun g => okalt ten (fst g) (snd g)) {m}_gens.
Proof.
  apply sector_syms; [exact (fock_ints_antisym _ _ _ HI)|exact (bare_anti _ HT)|]. destruct HY as ({' & '.join(f'A{k}' for k in range(len(g)))}).
  {' '.join(f'apply Forall_cons; [okswap6 A{k}|].' for k in range(len(g)))} apply Forall_nil.
Qed.
Lemma {m}_rt_ok e v : dn ({m}_rt e) v = den (fdim d) (tenv (jac_arrays d H T T ++ Rs)) e v.
Proof. apply (retag_sector d H T Rs). cbn [length]. lia. Qed.
"""
    for b, (cls, s) in bl.items():
        bra, c, sg, rq = data[b]
        nm = names(cls); n = len(cls); v = f"(venv [{'; '.join(nm)}])"
        A = lambda ix: " ".join(nm[i] for i in ix)
        def at(k, ix):
            h, x = k.split("_", 1)
            return f"x_{x} T {A(ix)}" if h == "t" else f"{m}_{x} Y {A(ix)}" if h == "R" else f"{m}_{x} Z {A(ix)}" if h == "S" else f"x_{x} X {A(ix)}"
        def atd(k, ix):
            h, x = k.split("_", 1)
            return f"(dn {el(k, ix)} {v})" if h not in "tR" else at(k, ix)
        def atw(k, ix):
            h, x = k.split("_", 1)
            return f"({m}_{x} Z {A(ix)} - w * {m}_{x} Y {A(ix)})" if h == "R" else at(k, ix)
        R = lambda d_, f: ex(d_, f, "(%s * %s)", "(%s + %s)", 1, "0")
        rhs = f"{R(c, atw)} + {R(rq, at)}"
        t += f"Lemma {m}_comp_{b} w {' '.join(nm)} : {bounds(cls, nm)} ->\n  str {strv(bra, nm)} ({m}_defect w) ref = {rhs}.\nProof.\n  intros {' '.join('H' + x for x in nm)}.\n"
        eqs = {}
        for d_ in (sg, rq):
            for k in d_:
                for nm_, ix in k:
                    if nm_.split("_")[0] not in "tR": eqs[(nm_, ix)] = None
        if not rq: pass
        for q, (k, ix) in enumerate(eqs):
            t += f"  assert (Q{q}_ : dn {el(k, ix)} {v} = {at(k, ix)}) by (rewrite {m + '_rt_ok' if k.startswith('S_') else 'sector_rt by (vm_compute; reflexivity)'}; reflexivity).\n"
        t += f"  change (opsem (noa d) (nob d) {m}_bra_{b} {v} ({m}_defect w) ref = {rhs}). unfold {m}_defect. rewrite <- ({m}_op_ok {v}).\n"
        t += f"  rewrite (defect2_ok d I T0 n Rs {m}_rts {rmin} En En' {m}_rtok {m}_own {m}_syms {m}_tab {m}_htab {m}_ext_{b} {m}_bra_{b} {v} m {m}_d_{b} {m}_c_{b} (E + w));\n"
        t += f"    [|extv|exact {m}_bk_{b}|cbn; lia|exact Hm|exact {m}_kd_{b}|exact {m}_kc_{b}].\n"
        t += f"  change (dn {m}_c_{b} {v}) with ({R(c, at)}).\n"
        t += f"  change (dn {m}_d_{b} {v}) with (dn f_en {v} * ({R(c, at)}) + ({R(sg, atd)} + {R(rq, atd) if rq else f'dn (EC 0 1) {v}'})).\n"
        t += f"  rewrite sector_en" + ("" if rq else ", den_zero") + "".join(f", Q{k}_" for k in range(len(eqs))) + ". ring.\nQed.\n"
    t += f"Lemma {m}_solves w : same_amps d X zero_amps -> (solves_on ({m}_space d n) n I (E + w) ({m}_op d Y psi) <-> {m}_root d Z Y w).\nProof.\n"
    t += "  intros [Za Zb Zaa Zab Zbb]. cbn [zero_amps x_a x_b x_aa x_ab x_bb] in Za, Zb, Zaa, Zab, Zbb.\n"
    t += f"  assert (F := {m}_flat d n ({m}_defect w) En En').\n"
    t += f"  transitivity (forall D, {m}_space d n D -> {m}_defect w D = 0); [unfold solves_on, {m}_defect; split; intros G D HD; specialize (G D HD); [rewrite G; ring|lra]|]. rewrite F. clear F. unfold {m}_root. split.\n"
    hn = lambda cls: " ".join(names(cls)) + " " + " ".join("H" + x for x in names(cls))
    used = lambda b: [k for k, x in enumerate(bl) if x != b and any(y[0] == "R_" + x for key in data[b][1] for y in key)]
    rz = lambda b: [z for z in ("a", "b", "aa", "ab", "bb") if any(y[0].split("_", 1) == ["X", z] or (y[0].split("_")[0] not in ("t", "R") and y[0].split("_", 1)[1] == z) for key in data[b][3] for y in key)]
    t += "  - intros (" + " & ".join(f"F{k}" for k in range(nb)) + ").\n"
    for k, (b, (c, s)) in enumerate(bl.items()):
        nm = names(c)
        t += f"    assert (L{k} : forall {' '.join(nm)}, {bounds(c, nm)} -> {m}_{b} Z {' '.join(nm)} - w * {m}_{b} Y {' '.join(nm)} = 0).\n"
        t += f"    {{ intros {hn(c)}. specialize (F{k} {hn(c)}). rewrite {m}_comp_{b}" + "".join(f", !Z{z}" for z in rz(b)) + "".join(f", !L{j}" for j in used(b)) + f" in F{k} by assumption. rewrite <- F{k}. ring. }}\n"
    t += "    " + "split; [|" * (nb - 1) + "]" * (nb - 1) + "; intros; apply Rminus_diag_uniq; auto.\n"
    t += "  - intros (" + " & ".join(f"G{k}" for k in range(nb)) + ").\n"
    for k, (b, (c, s)) in enumerate(bl.items()):
        nm = names(c)
        t += f"    assert (L{k} : forall {' '.join(nm)}, {bounds(c, nm)} -> {m}_{b} Z {' '.join(nm)} - w * {m}_{b} Y {' '.join(nm)} = 0) by (intros; rewrite G{k} by assumption; ring).\n"
    t += "    " + "split; [|" * (nb - 1) + "]" * (nb - 1) + ".\n"
    for k, (b, (c, s)) in enumerate(bl.items()):
        t += f"    + intros {hn(c)}. rewrite {m}_comp_{b}" + "".join(f", !Z{z}" for z in rz(b)) + "".join(f", !L{j}" for j in used(b) + [k]) + " by assumption. ring.\n"
    t += "Qed.\nEnd P.\n"
    return t
if __name__ == "__main__":
    out = sys.argv[1]
    open(out + "Sector3Spec.v", "w").write(spec())
    open(out + "FockSpaces3.v", "w").write(flats())
    for m in sys.argv[2:] or METHODS: open(out + f"Sector{m.capitalize()}Fock.v", "w").write(gen(m))
