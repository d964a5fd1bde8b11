"""Generate Sector<M>Fock.v (proof support): for each method of gen_sector.py the strings of its operator, the expressions for the components of
(H - E - w) R exp(T) |ref>, the checks by computation and the lemmas that state the components with the arrays of the program."""
import sys
sys.path.insert(0, "/verif/tools")
from gen_sector import METHODS, CLS, DIM
# products with lower blocks: block -> (sign, spin of t, positions of its axes, positions of the axes of the lowest block)
PROD = {
 "ip": {"a": [], "aa": [(1, 0, (1, 2), (0,)), (-1, 0, (1, 0), (2,))], "ab": [(1, 1, (1, 2), (0,))]},
 "ea": {"a": [], "aa": [(1, 0, (1, 2), (0,)), (-1, 0, (0, 2), (1,))], "ab": [(1, 1, (1, 2), (0,))]},
 "sf": {"b": [], "ab": [(1, 0, (0, 2), (1, 3)), (-1, 0, (0, 3), (1, 2))], "bb": [(1, 1, (0, 2), (1, 3)), (-1, 1, (1, 2), (0, 3))]},
 "dip": {"ab": [], "aba": [(1, 0, (2, 3), (0, 1)), (-1, 0, (2, 0), (3, 1))], "abb": [(1, 1, (2, 3), (0, 1)), (-1, 1, (2, 1), (0, 3))]},
 "dea2": {"ab": []},
 "dea": {"ab": [], "aba": [(1, 0, (2, 3), (0, 1)), (-1, 0, (0, 3), (2, 1))], "abb": [(1, 1, (2, 3), (0, 1)), (-1, 1, (1, 3), (0, 2))]},
 "tea": {"aab": []},
}
ORB = {"o": "oa %s", "O": "ob %s", "v": "va d %s", "V": "vb d %s"}
HEAD = """(** Generated by tools/gen_secfock.py: components of (H - E - w) R exp(T) |ref> for the %s operator (proof support). *)
From Coq Require Import Reals Arith NArith List Bool Lia Lra QArith Qreals ZArith FunctionalExtensionality.
From Verif Require Import RSum IntegralsModel TensorObjs TensorAlg TensorSpec CcsdModel CcsdUpdate CcsdReify CcsdProps FockSpec FockCar FockWick FockArrays FockCcSpec FockTerms FockHam FockExp FockLevel FockCheck FockState FockNear FockProj FockSector FockSectorTools SectorModel FockSectorSpec FockFlip FockSpaces Sector%sReify.
Import ListNotations.
Local Open Scope nat_scope.
"""
def ops(cls, s, off=0):
    return [("A" if w[0] == "~" else "C", cls[int(w.strip("~"))], off + int(w.strip("~"))) for w in s.split()]
def adj(o): return [("A" if a == "C" else "C", c, x) for a, c, x in reversed(o)]
def show(o): return "[" + "; ".join(f"{a} {CLS[c]} {x}" for a, c, x in o) + "]"
def names(cls):
    if cls == "o": return "i"
    r, v, o = "", iter("abce"), iter("ijkl")
    return "".join(next(v) if c in "vV" else next(o) for c in cls)
def gen(m):
    bl = METHODS[m]["blocks"]; low = next(iter(bl)); nb = len(bl)
    t = HEAD % (m.upper(), m.capitalize())
    ts, g = [], []
    for k, (b, (cls, s, w, anti)) in enumerate(bl.items()):
        n = len(cls)
        ts.append(f"mkTerm (1 # {w}) [{'; '.join(f'({40 + i}, {CLS[c]})' for i, c in enumerate(cls))}] [({66 + k}, [{'; '.join(str(40 + i) for i in range(n))}])] {show(ops(cls, s, 40))}")
        if anti:
            p = list(range(n)); p[anti[0]], p[anti[1]] = p[anti[1]], p[anti[0]]
            g.append(f"({66 + k}, ({66 + k}, [{'; '.join(map(str, p))}], false))")
    rmin = min(s.count("~") for _, s, _, _ in bl.values())
    t += f"Definition {m}_rts : list term := [{'; '.join(ts)}].\n"
    t += f"Definition {m}_own : list (nat * (nat * list nat * bool)) := [{'; '.join(g)}].\nDefinition {m}_gens := fock_gens ++ {m}_own.\n"
    t += f"Definition {m}_tab := Eval vm_compute in symtab {m}_gens {66 + nb}.\nDefinition {m}_rt e := retag (to_sector {nb}) e.\n"
    t += f"Lemma {m}_htab : {m}_tab = symtab {m}_gens {66 + nb}. Proof. vm_compute. reflexivity. Qed.\n"
    t += f"Lemma {m}_rtok : rtok {m}_rts {rmin} = true. Proof. vm_compute. reflexivity. Qed.\n"
    idx = list(bl)
    for b, (cls, s, w, anti) in bl.items():
        n = len(cls)
        R = lambda b_, x: f"(ET {66 + idx.index(b_)} [{'; '.join(map(str, x))}])"
        S = lambda b_, x: f"({m}_rt (s_{m}_{b_} 10 {' '.join(map(str, x))}))"
        def build(F):
            e = F(b, range(n))
            for sg, ta, (p, q), lw in PROD[m][b]: e = f"({'EAdd' if sg > 0 else 'ESub'} {e} (EMul (ET {ta} [{p}; {q}]) {F(low, lw)}))"
            return e
        de = build(S)
        for sg, ta, (p, q), lw in PROD[m][b]: de = f"({'EAdd' if sg > 0 else 'ESub'} {de} (EMul ({'rb' if ta else 'ra'} {p} {q}) {R(low, lw)}))"
        t += f"Definition {m}_bra_{b} : list op := {show(adj(ops(cls, s)))}.\nDefinition {m}_ext_{b} : list (nat * nat) := [{'; '.join(f'({i}, {CLS[x]})' for i, x in enumerate(cls))}].\n"
        t += f"Definition {m}_c_{b} := {build(R)}.\nDefinition {m}_d_{b} := EAdd (EMul f_en {m}_c_{b}) {de}.\n"
        t += f"Lemma {m}_bk_{b} : braok {m}_ext_{b} {m}_bra_{b} = true. Proof. vm_compute. reflexivity. Qed.\n"
        t += f"Lemma {m}_kc_{b} : fock_same {m}_tab {m}_ext_{b} (eek {m}_bra_{b} {m}_rts) {m}_c_{b} = true. Proof. vm_compute. reflexivity. Qed.\n"
        t += f"Lemma {m}_kd_{b} : fock_same {m}_tab {m}_ext_{b} (hek {m}_bra_{b} {m}_rts) {m}_d_{b} = true. Proof. vm_compute. reflexivity. Qed.\n"
    anti = [b for b in bl if bl[b][3]]
    hy = f"Hypothesis HY : {m}_anti Y.\n" if anti else ""
    t += f"""Local Open Scope R_scope.
Section P.
Variables (d : dims) (I : integrals) (T : amps) (Y : {m}v) (n m : nat).
Hypothesis En : (noa d + nua d = n)%nat.
Hypothesis En' : (nob d + nub d = n)%nat.
Hypothesis HI : exchangeable I.
Hypothesis HT : antisym_amps T.
{hy}Hypothesis Hm : (3 <= m)%nat.
Notation H := (fock_ints (noa d) (nob d) I).
Notation ref := (reference (noa d) (nob d)).
Notation psi := (expo (cluster_sd d T) m (pure ref)).
Notation E := (scf_energy (noa d) (nob d) I + cc_energy d H T).
Notation Rs := [{'; '.join(f'ap{len(bl[b][0])} ({m}_{b} Y)' for b in bl)}].
Notation ten := (tenv (fock_arrays H T ++ Rs)).
Notation dn e v := (den (fdim d) ten e v).
Notation X := (ccsd_resid d H T).
Notation Z := ({m}_HR d (hbar_ccsd d H T) T Y).
Definition {m}_defect (w : R) : state := fun D => hamiltonian n I ({m}_op d Y psi) D - (E + w) * {m}_op d Y psi D.
Lemma {m}_op_ok v phi : psem (noa d) (nob d) (fdim d) ten {m}_rts v phi = {m}_op d Y phi.
Proof.
  apply ext_state; intros D. unfold psem, {m}_rts, {m}_op. cbn [lsum]. unfold tsem. cbn [t_c t_l t_f t_o]. rewrite ?Q1, ?half, ?Rmult_1_l, Rplus_0_r, ?Rplus_assoc.
  repeat match goal with |- _ + _ = _ + _ => apply f_equal2 | |- / 2 * _ = / 2 * _ => apply f_equal end; cbn [ssum]; repeat (apply sumn_ext; intros ? _); cbn [prodf]; rewrite Rmult_1_r; reflexivity.
Qed.
Lemma {m}_syms : Forall (fun g => okalt ten (fst g) (snd g)) {m}_gens.
Proof.
  apply sector_syms; [exact (fock_ints_antisym _ _ _ HI)|exact HT|]. unfold {m}_own. repeat constructor; cbn [fst snd].
"""
    if anti:
        t = t[:-1]
        t = t.replace("repeat constructor; cbn [fst snd].", f"destruct_anti HY. repeat apply Forall_cons; try apply Forall_nil; cbn [fst snd].") if False else t
    t = t.replace(" unfold %s_own. repeat constructor; cbn [fst snd]." % m, "")
    if not anti: t += "  apply Forall_nil.\nQed.\n"
    elif len(anti) == 1: t += f"\n  apply Forall_cons; [okswap HY|apply Forall_nil].\nQed.\n"
    else: t += f"\n  destruct HY as (A1 & A2). apply Forall_cons; [okswap A1|apply Forall_cons; [okswap A2|apply Forall_nil]].\nQed.\n"
    t += f"""Lemma {m}_rt_ok e v : dn ({m}_rt e) v = den (fdim d) (tenv (jac_arrays d H T T ++ Rs)) e v.
Proof. apply (retag_sector d H T Rs). cbn [length]. lia. Qed.
"""
    for b, (cls, s, w, an) in bl.items():
        nm = names(cls); n = len(cls)
        v = f"(venv [{'; '.join(nm)}])"
        bd = " -> ".join(f"({x} < {DIM[c]} d)%nat" for x, c in zip(nm, cls))
        st = "[" + "; ".join(f"({'true' if a == 'C' else 'false'}, {ORB[c] % nm[x]})" for a, c, x in adj(ops(cls, s))) + "]"
        df = lambda b_, x: f"({m}_{b_} Z {' '.join(x)} - w * {m}_{b_} Y {' '.join(x)})"
        res, chg_c, chg_d = df(b, nm), f"{m}_{b} Y {' '.join(nm)}", f"dn ({m}_rt (s_{m}_{b} 10 {' '.join(map(str, range(n)))})) {v}"
        eqs = [(chg_d, f"{m}_{b} Z {' '.join(nm)}")]
        tail = ""
        for sg, ta, (p, q), lw in PROD[m][b]:
            o = "+" if sg > 0 else "-"; x = "ab"[ta]; l = [nm[i] for i in lw]
            res += f" {o} x_{x} T {nm[p]} {nm[q]} * {df(low, l)}"
            chg_c += f" {o} x_{x} T {nm[p]} {nm[q]} * {m}_{low} Y {' '.join(l)}"
            e = f"dn ({m}_rt (s_{m}_{low} 10 {' '.join(map(str, lw))})) {v}"
            eqs.append((e, f"{m}_{low} Z {' '.join(l)}"))
            chg_d += f" {o} x_{x} T {nm[p]} {nm[q]} * {e}"
            e = f"dn (rt (r_ccsd_res_{x} 10 {p} {q})) {v}"
            eqs.append((e, f"x_{x} X {nm[p]} {nm[q]}"))
            tail += f" {o} {e} * {m}_{low} Y {' '.join(l)}"
        chg_d += tail
        for sg, ta, (p, q), lw in PROD[m][b]:
            res += f" {'+' if sg > 0 else '-'} x_{'ab'[ta]} X {nm[p]} {nm[q]} * {m}_{low} Y {' '.join(nm[i] for i in lw)}"
        extl = {1: "ext_1", 2: "ext2", 3: "ext_3", 4: "ext4"}[n]
        t += f"Lemma {m}_comp_{b} w {' '.join(nm)} : {bd} ->\n  str {st} ({m}_defect w) ref = {res}.\nProof.\n"
        t += "  intros " + " ".join("H" + x for x in nm) + ".\n"
        for k, (e, r) in enumerate(eqs):
            t += f"  assert (Q{k}_ : {e} = {r}) by (rewrite {m + '_rt_ok' if m + '_rt (' in e else 'sector_rt by (vm_compute; reflexivity)'}; reflexivity).\n"
        t += f"  change (opsem (noa d) (nob d) {m}_bra_{b} {v} ({m}_defect w) ref = {res}). unfold {m}_defect. rewrite <- ({m}_op_ok {v}).\n"
        t += f"  rewrite (defect_ok d I T n Rs {m}_rts {rmin} En En' {m}_rtok {m}_gens {m}_tab {m}_htab {m}_syms {m}_ext_{b} {m}_bra_{b} {v} m {m}_d_{b} {m}_c_{b} (E + w));\n"
        t += f"    [|now apply {extl}|exact {m}_bk_{b}|cbn; lia|exact Hm|exact {m}_kd_{b}|exact {m}_kc_{b}].\n"
        t += f"  change (dn {m}_c_{b} {v}) with ({chg_c}).\n"
        t += f"  change (dn {m}_d_{b} {v}) with (dn f_en {v} * ({chg_c}) + ({chg_d})).\n"
        t += f"  rewrite sector_en" + "".join(f", Q{k}_" for k in range(len(eqs))) + ". ring.\nQed.\n"
    # equivalence
    t += f"Lemma {m}_solves w : same_amps d X zero_amps -> (solves_on ({m}_space n ref) n I (E + w) ({m}_op d Y psi) <-> {m}_root d Z Y w).\nProof.\n"
    t += "  intros [Za Zb _ _ _]. cbn [zero_amps x_a x_b] in Za, Zb.\n"
    t += f"  assert (F := {m}_flat d n ({m}_defect w) En En').\n"
    t += f"  transitivity (forall D, {m}_space n ref D -> {m}_defect w D = 0); [unfold solves_on, {m}_defect; split; intros G D HD; specialize (G D HD); [rewrite G; ring|lra]|]. rewrite F. clear F. unfold {m}_root. split.\n"
    up = [b for b in bl if b != low]
    hn = lambda cls: " ".join(names(cls)) + " " + " ".join("H" + x for x in names(cls))
    lc = bl[low][0]
    if up:
        t += "  - intros (" + " & ".join(f"F{k}" for k in range(nb)) + ").\n"
        t += f"    assert (L : forall {' '.join(names(lc))}, " + " -> ".join(f"({x} < {DIM[c]} d)%nat" for x, c in zip(names(lc), lc)) + f" -> {m}_{low} Z {' '.join(names(lc))} = w * {m}_{low} Y {' '.join(names(lc))}).\n"
        t += f"    {{ intros {hn(lc)}. specialize (F0 {hn(lc)}). rewrite {m}_comp_{low} in F0 by assumption. lra. }}\n"
        t += "    split; [exact L|split].\n"
        for k, b in enumerate(up):
            c = bl[b][0]
            t += f"    + intros {hn(c)}. specialize (F{k + 1} {hn(c)}). rewrite {m}_comp_{b}, ?Za, ?Zb, !L in F{k + 1} by assumption. lra.\n"
        t += "  - intros (" + " & ".join(f"G{k}" for k in range(nb)) + "). split; [|split].\n"
        t += f"    + intros {hn(lc)}. rewrite {m}_comp_{low}, G0 by assumption. ring.\n"
        for k, b in enumerate(up):
            c = bl[b][0]
            t += f"    + intros {hn(c)}. rewrite {m}_comp_{b}, G{k + 1}, ?Za, ?Zb, !G0 by assumption. ring.\n"
    else:
        t += f"  - intros F {hn(lc)}. specialize (F {hn(lc)}). rewrite {m}_comp_{low} in F by assumption. lra.\n"
        t += f"  - intros G {hn(lc)}. rewrite {m}_comp_{low}, G by assumption. ring.\n"
    t += "Qed.\nEnd P.\n"
    return t
def main(out="/verif/rocq/theories/"):
    for m in METHODS: open(out + f"Sector{m.capitalize()}Fock.v", "w").write(gen(m))
if __name__ == "__main__":
    main(*sys.argv[1:])
