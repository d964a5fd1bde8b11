"""Generate Left3Model.v and Sector<M>Left.v from /repo (text only): the left IP (3h2p) and EA (3p2h) vectors, against the right ones of gen_sector3.py."""
import sys
sys.path.insert(0, "/verif/tools")
from tgen import *
from gen_eomccsd import HEAD
from gen_sector3 import METHODS, DIM, vec, sigma, result, weight3, swaps, RHEAD
LEFT = {"ipt": (["ccpy/left/left_ipeom_intermediates.py", "ccpy/left/left_ipeom3.py"], "(LH_fun, lines 23-37)"),
        "eat": (["ccpy/left/left_eaeom_intermediates.py", "ccpy/left/left_eaeom3.py"], "(LH_fun, lines 23-36)")}
def lsigma(m):
    P = Prog(m + "l_", f"(d : dims) (H : ints) (T : amps) (L : {m}v)", "d H T L")
    for f in LEFT[m][0]: P.load(f)
    LH = Obj("LH", lambda k: None)
    P.call("LH_fun", [LH, vec(m, "L"), amps("T"), ints("H"), False, None])
    return P, LH
def vdot(m, L, Rh, weighted=True):
    tot = None
    for b, (cls, ops) in METHODS[m]["blocks"].items():
        ix = tuple("abcdefgh"[:len(cls)])
        t = ("mul", ("t", L[b], ix), Rh[b](ix) if callable(Rh[b]) else ("t", Rh[b], ix))
        for x, c in reversed(list(zip(ix, cls))): t = ("sum", x, DIM[c], t)
        if weighted and weight3(cls) != 1: t = ("scale", F(1, weight3(cls)), t)
        tot = t if tot is None else ("add", tot, t)
    return tot
def heads(n):
    return {n[1].split(" ")[0]} if n[0] == "t" else set().union(*[heads(x) for x in n[1:] if isinstance(x, tuple)]) if n[0] != "sum" else {None}
def pre(P, name):
    """the array before the antisymmetrising statements at the end of the program"""
    name = name.split(" ")[0]
    while True:
        h = heads(P.defs[name][1])
        if len(h) != 1 or None in h or next(iter(h)) not in P.defs: return name
        name = next(iter(h))
def expand(P, name, base, new):
    """the antisymmetrising statements as a function of the array new"""
    name = name.split(" ")[0]
    def at(nm, ix):
        if nm == base: return ("t", new, tuple(ix))
        vs, node, axes, src = P.defs[nm]
        return sub(node, dict(zip(vs, ix)))
    def sub(n, env):
        if n[0] == "t": return at(n[1].split(" ")[0], [env[x] for x in n[2]])
        return (n[0],) + tuple(sub(x, env) if isinstance(x, tuple) else x for x in n[1:])
    return lambda ix: at(name, ix)
def coq(n):
    if n[0] == "t": return f"{n[1]} {' '.join(n[2])}"
    return "(" + coq(n[1]) + {"add": " + ", "sub": " - "}[n[0]] + coq(n[2]) + ")"
def vgens(m):
    def g(head, closed=False):
        f, var = head.split(" ")
        pre, b = f.split("_", 1)
        if pre == m: return [(head, p, False) for p in swaps(METHODS[m]["blocks"][b][0])]
        return gens(head)
    return g
def main(out="/verif/rocq/theories/"):
    t = (HEAD % ("left3", "Models the left vectors of IP-EOMCCSD(3h-2p) and EA-EOMCCSD(3p-2h):\n    " + ",\n    ".join(f"{', '.join(x[0])} {x[1]}" for x in LEFT.values())
        + ".\n    The records are those of Sector3Model.v.")).replace("IntegralsModel TensorObjs", "IntegralsModel TensorObjs Sector3Model", 1)
    for m in LEFT:
        Q, LH = lsigma(m)
        t += Q.text() + f"\n(** {LEFT[m][0][-1]} {LEFT[m][1]}: the vector returned *)\n" + result(m, m + "_LH", Q, LH) + "\n"
        P, dR = sigma(m)
        R = Reify()
        R.add(P); R.add(Q)
        bl = METHODS[m]["blocks"]
        full = {"r": (P, {b: dR._d[b].name for b in bl}), "l": (Q, {b: LH._d[b].name for b in bl})}
        base = {k: {b: pre(*full[k][:1], full[k][1][b]) for b in bl} for k in full}
        R.node(f"r_{m}_lhs", [], vdot(m, {b: f"{m}_{b} L" for b in bl}, {b: base["r"][b] + " _" for b in bl}, False))
        R.node(f"r_{m}_rhs", [], vdot(m, {b: f"{m}_{b} R" for b in bl}, {b: base["l"][b] + " _" for b in bl}, False))
        s = f"(** Generated by tools/gen_left3.py: reified right and left {m.upper()} programs (proof support). *)\n" + RHEAD % "Sector3Model Left3Model" + "\n".join(R.out) + "\n"
        s += tables(R, gen=vgens(m), params=f"(d : dims) (H : ints) (T : amps) (L R : {m}v)", name=f"{m}lr_")
        # the antisymmetrising statements alone: Q stands for the arrays before them
        A = Reify()
        for k in full:
            ex = {b: expand(full[k][0], full[k][1][b], base[k][b], f"{m}_{b} Q") for b in bl}
            A.node(f"r_{m}_asym_{k}", [], vdot(m, {b: f"{m}_{b} L" for b in bl}, ex))
            s += f"Definition {m}_asym_{k} (Q : {m}v) : {m}v := mk{m.capitalize()} " + " ".join("(fun " + " ".join("abcdefgh"[:len(bl[b][0])]) + " => " + coq(ex[b]("abcdefgh"[:len(bl[b][0])])) + ")%R" for b in bl) + ".\n"
            s += f"Definition {m}_pre_{k} (d : dims) (H : ints) (T : amps) (Y : {m}v) : {m}v := mk{m.capitalize()} " + " ".join(f"({base[k][b]} d H T Y)" for b in bl) + ".\n"
        A.node(f"r_{m}_plain", [], vdot(m, {b: f"{m}_{b} L" for b in bl}, {b: f"{m}_{b} Q" for b in bl}, False))
        s += "\n".join(A.out) + "\n"
        g = vgens(m)
        s += tables(A, gen=lambda h, closed=False: g(h) if h.endswith(" L") else [], params=f"(L Q : {m}v)", name=f"{m}as_")
        open(out + f"Sector{m.capitalize()}Left.v", "w").write(s)
    open(out + "Left3Model.v", "w").write(t)
if __name__ == "__main__":
    main(*sys.argv[1:])
