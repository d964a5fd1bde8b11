"""Generate CrccModel.v (CR-CC(2,3) moments, left amplitudes, denominators and loops) and CrccReify.v from /repo (text only)."""
import sys, ast, re
sys.path.insert(0, "/verif/tools")
from tgen import *
from gen_eomccsd import HEAD
from gen_ccsd import hbar, BLK1, BLK2
from gen_ccsdt import fock_ids
import gen_crcc_parse as gp
CASE = {"A": "aaa", "B": "aab", "C": "abb", "D": "bbb"}
PY = "ccpy/moments/crcc23.py"
F90 = "ccpy/lib/fortran/crcc_loops.f90"
def program():
    P = Prog("crcc_", "(d : dims) (H0 H : ints) (T L : amps)", "d H0 H T L")
    env = {"T": amps("T"), "L": amps("L"), "H": ints("H"), "H0": ints("H0")}
    H, T = env["H"], env["T"]
    def d3(name, axes, letters, sign, con, dim, v, vix, t, tix, line):
        node = ("sum", con, dim, ("mul", ("t", v, tuple(vix)), ("t", t, tuple(tix))))
        if sign < 0: node = ("neg", node)
        env[name] = P.define(name, Arr(axes, lambda ix, used: subst(node, dict(zip(letters, ix))), list(letters)), f"ccpy/hbar/diagonal.py, line {line}")
    def subst(n, m):
        if n[0] == "t": return ("t", n[1], tuple(m.get(x, x) for x in n[2]))
        if n[0] == "sum": return ("sum", n[1], n[2], subst(n[3], m))
        return (n[0],) + tuple(subst(x, m) for x in n[1:])
    lines = open(REPO + "ccpy/hbar/diagonal.py").read().split("\n")
    for fn, nm in (("A", "aaa"), ("B", "aab"), ("C", "abb"), ("D", "bbb")):
        for w in "VO":
            k, l = next((k + 1, l) for k, l in enumerate(lines) if re.match(rf"\s*d3{fn}_{w} = lambda", l))
            m = re.match(r"\s*d3\w_\w = lambda (\w), (\w), (\w): (-?)np\.dot\(H\.(\w+)\.oovv\[(.*?)\]\.T, T\.(\w+)\[(.*?)\]\)", l)
            letters = m.group(1) + m.group(2) + m.group(3)
            s, vi, s2, ti = m.group(5), m.group(6).split(", "), m.group(7), m.group(8).split(", ")
            assert s == s2
            con = "m" if w == "V" else "e"
            va, ta = ints_axes(s, "oovv"), amp_axes(s)
            cd = va[vi.index(":")]; assert ta[ti.index(":")] == cd
            vi = [con if x == ":" else x for x in vi]; ti = [con if x == ":" else x for x in ti]
            ax = {}
            for x, a in list(zip(vi, va)) + list(zip(ti, ta)): assert ax.setdefault(x, a) == a
            d3(f"d3{nm}_{w.lower()}", [ax[x] for x in letters], letters, -1 if m.group(4) else 1, con, cd, f"i_{s}_oovv H", vi, f"x_{s} T", ti, k)
    for s in ("aa", "ab", "bb"):
        env[f"h_{s}_vvvv"] = base(f"crcc_h_{s}_vvvv H", [VIRT[s[0]], VIRT[s[1]]])
    src = open(REPO + PY).read()
    fn = [n for n in ast.parse(src).body if isinstance(n, ast.FunctionDef) and n.name == "calc_crcc23"][0]
    out = {}
    def walk(body):
        for s in body:
            c = f"{PY}, calc_crcc23, lines {s.lineno}-{s.end_lineno}"
            if isinstance(s, ast.Assign) and isinstance(s.targets[0], ast.Name) and s.targets[0].id.startswith("I2"):
                env[s.targets[0].id] = P.define(s.targets[0].id, P.expr(s.value, env, c), c.replace(f"lines {s.lineno}-{s.lineno}", f"line {s.lineno}"))
            elif isinstance(s, ast.Assign) and isinstance(s.value, ast.Call) and re.search("crcc23.*opt", ast.unparse(s.value.func)):
                x = s.value.func.attr[6].upper()
                case(x, s.value.args, c)
            elif isinstance(s, ast.If): walk(s.orelse)
    def case(x, actual, cite):
        L = gp.Loops(f"crcc23{x}_opt"); b = CASE[x]
        assert len(L.formals) == 4 + len(actual)
        av = {}
        for f, a in zip(L.formals[4:], actual):
            if ast.unparse(a).startswith("system"):
                assert ast.unparse(a) == {"noa": "system.noccupied_alpha", "nob": "system.noccupied_beta", "nua": "system.nunoccupied_alpha", "nub": "system.nunoccupied_beta"}[f]
                continue
            av[f] = P.val(a, env, "")
            assert av[f].arr.axes == L.dim(f), (x, f)
        axes = amp_axes(b)
        def el(nm, ix): return av[nm].arr.fn(list(ix), set("abcijkme"))
        def contraction(C, letters):
            tot = None
            for al, v, k, (an, ai), (bn, bi), _ in L.gemms(C, list("abc")):
                t = ("scale", al, ("sum", v, k, ("mul", el(an, ai), el(bn, bi))))
                tot = t if tot is None else ("add", tot, t)
            ls = [g[-1] for g in L.gemms(C, list("abc"))]
            return P.define(letters, Arr(axes, lambda ix, used: tot, list("abcijk")), f"{F90}, crcc23{x}_opt, lines {ls[0][0]}-{ls[-1][1]} (array {C} at (a,b,c) for the loop indices i, j, k)")
        X = contraction("X3" + x, "X3" + b); Y = contraction("L3" + x, "L3" + b)
        def signed(t):
            tot = None
            for sg, fs in L.expr(t):
                p = None
                for nm, ix in fs:
                    full = {"X3" + x: X, "L3" + x: Y}.get(nm.upper() if nm.upper() in ("X3" + x, "L3" + x) else nm)
                    e = full.arr.fn(list(ix) + list("ijk"), set()) if full else el(nm, ix)
                    p = e if p is None else ("mul", p, e)
                tot = (p if sg > 0 else ("neg", p)) if tot is None else ("add" if sg > 0 else "sub", tot, p)
            return tot
        def one(nm, node, ls):
            return P.define(nm, Arr(axes, lambda ix, used: node, list("abcijk")), f"{F90}, crcc23{x}_opt, lines {ls[0]}-{ls[1]}")
        t1, t2, t3 = L.temps["temp1"], L.temps["temp2"], L.temps["temp3"]
        one("M_" + b, signed(t1[2]), t1)
        l2 = one("L2_" + b, signed(t2[2]), t2); l1 = one("L1_" + b, signed(t3[2]), t3)
        lm = next(z for z in L.temps["lines"] if z[2].replace(" ", "").startswith("LM="))
        assert lm[2].replace(" ", "") == "LM=temp1*(temp2+temp3)"
        one("L_" + b, ("add", l2.arr.fn(list("abcijk"), set()), l1.arr.fn(list("abcijk"), set())), (lm[0], lm[1]))
        prev = None
        for w, (a0, a1, t) in zip("ABCD", L.D):
            t = t.strip()
            rest = signed(t[1:].strip().lstrip("+") if w in "CD" else t) if not (w in "CD" and t[1:].strip()[0] == "-") else signed(t[1:].strip())
            if w in "CD":
                assert t[0] == "D" and t[1:].strip()[0] in "+-"
                rest = ("add", prev.arr.fn(list("abcijk"), set()), rest)
            prev = one(f"D{w}_{b}", rest, (a0, a1))
        acc = [z[2].replace(" ", "") for z in L.temps["lines"] if not z[2].startswith("LM")]
        assert acc[-4:] == [f"delta{w}=delta{w}+LM/D" for w in "ABCD"], acc
        rng = {"aaa": [("i", "1", "noa"), ("j", "i+1", "noa"), ("k", "j+1", "noa"), ("a", "1", "nua"), ("b", "a+1", "nua"), ("c", "b+1", "nua")]}
        out[x] = (L.do, gp.joined(f"crcc23{x}_opt"))
    walk(fn.body)
    return P, out
def loops(do):
    """nested Fortran do loops as a list of index tuples, in execution order"""
    t = "fun s => s"
    def go(k):
        v, lo, hi = do[k]
        r = f"(seq 0 ({hi} d))" if lo == "1" else f"(seq (S {lo[0]}) ({hi} d - S {lo[0]}))"
        assert lo == "1" or lo == do[k - 1][0] + "+1"
        if k == len(do) - 1: return f"map (fun {v} => (a, b, c, i, j, k)) {r}"
        return f"flat_map (fun {v} => {go(k + 1)}) {r}"
    return go(0)
if __name__ == "__main__":
    out = sys.argv[1] if len(sys.argv) > 1 else "/verif/rocq/theories/"
    P, cases = program()
    t = (HEAD % ("crcc", "Models ccpy/moments/crcc23.py (calc_crcc23), ccpy/hbar/diagonal.py (aaa_H3_aaa_diagonal .. bbb_H3_bbb_diagonal) and\n    ccpy/lib/fortran/crcc_loops.f90 (crcc23A_opt .. crcc23D_opt).  H0: the Fock operator, H: the similarity-transformed Hamiltonian, T and L: cluster and left amplitudes.\n    A dgemm call is the sum over the contracted axis it computes; a reorder_stripe call is the transposition it names (proved in ReorderProps.v).")).replace("Require Import Reals Arith.", "Require Import Reals Arith List.").replace("TensorObjs.\n", "TensorObjs.\nImport ListNotations.\n")
    t += "(** ccpy/moments/crcc23.py, calc_crcc23, lines 22-37: the diagonal of the vvvv blocks *)\n"
    for s in ("aa", "ab", "bb"):
        t += f"Definition crcc_h_{s}_vvvv (H : ints) : mat2 := fun a b => " + (f"if Nat.leb a b then i_{s}_vvvv H a b a b else i_{s}_vvvv H b a b a.\n" if s != "ab" else "i_ab_vvvv H a b a b.\n")
    t += P.text() + "\n"
    t += """(** The accumulators deltaA .. deltaD *)
Definition quad : Type := (R * R * R * R)%type.
Definition quad_add (p q : quad) : quad := let '(a, b, c, e) := p in let '(a', b', c', e') := q in (a + a', b + b', c + c', e + e').
Definition quad_scale (x : R) (p : quad) : quad := let '(a, b, c, e) := p in (x * a, x * b, x * c, x * e).
"""
    for x, (do, jl) in cases.items():
        b = CASE[x]
        t += f"(** {F90}, crcc23{x}_opt: the do loops over i, j, k, a, b, c (lines {min(a for a, e, s in jl if s.startswith('do '))}-{max(a for a, e, s in jl if s.startswith('do '))}), innermost last *)\n"
        t += f"Definition crcc_loop_{b} (d : dims) : list (nat * nat * nat * nat * nat * nat) :=\n  {loops(do)}.\n"
        g = "d H0 H T L"
        t += f"(** {F90}, crcc23{x}_opt, lines {jl[0][0]}-{jl[-1][1]} *)\n"
        t += f"Definition crcc23{x}_opt (d : dims) (H0 H : ints) (T L : amps) : quad :=\n  fold_left (fun s q => let '(a, b, c, i, j, k) := q in let LM := crcc_M_{b} {g} a b c i j k * crcc_L_{b} {g} a b c i j k in\n    quad_add s (" + ", ".join(f"LM / crcc_D{w}_{b} {g} a b c i j k" for w in "ABCD") + f")) (crcc_loop_{b} d) (0, 0, 0, 0).\n"
    t += """(** ccpy/moments/crcc23.py, calc_crcc23, lines 75-116: the corrections delta23 *)
Definition calc_crcc23_delta (d : dims) (H0 H : ints) (T L : amps) (use_RHF : bool) : quad :=
  if use_RHF then quad_add (quad_scale 2 (crcc23A_opt d H0 H T L)) (quad_scale 2 (crcc23B_opt d H0 H T L))
  else quad_add (quad_add (quad_add (crcc23A_opt d H0 H T L) (crcc23B_opt d H0 H T L)) (crcc23C_opt d H0 H T L)) (crcc23D_opt d H0 H T L).
(** ccpy/moments/crcc23.py, calc_crcc23, lines 118-156: the total energies Ecrcc23 *)
Definition calc_crcc23 (d : dims) (H0 H : ints) (T L : amps) (reference_energy corr_energy : R) (use_RHF : bool) : quad :=
  let add x := reference_energy + (corr_energy + x) in
  let '(a, b, c, e) := calc_crcc23_delta d H0 H T L use_RHF in (add a, add b, add c, add e).
"""
    open(out + "CrccModel.v", "w").write(t)
    Q, hb = hbar()
    R = Reify(); R.alias = {"U": "T", "H0": "H0"}
    fock_ids(R)
    assert len(R.tens) == 66
    for k, b in enumerate(["a", "b", "aa", "ab", "bb"]): assert R.tid(f"x_{b} L", 2 * len(b)) == 66 + k
    R.add(Q, tag="k_")
    sub = {}
    for b in BLK1 + BLK2:
        s, xy = b.split("_")
        nm = hb.get(s).get(xy).name
        if nm.startswith("hb_"): sub[f"i_{b} H"] = "k_" + nm.split(" ")[0]
    names = [n for n in P.order if not re.match(r"crcc_D[ABCD]_", n)]
    R.add(P, subst=sub, names=names, tag="k_")
    assert len(R.tens) == 71, R.tens[71:]
    t = """(** Generated by tools/gen_crcc.py: moments and left amplitudes of CR-CC(2,3) with the similarity-transformed Hamiltonian put in, reified; arrays 0-65 as in
    FockArrays.v, 66-70 the left amplitudes (proof support). *)
From Coq Require Import Reals Arith List ZArith.
From Verif Require Import RSum IntegralsModel TensorObjs TensorAlg.
Import ListNotations.
Local Open Scope nat_scope.
""" + "\n".join(R.out) + "\n"
    open(out + "CrccReify.v", "w").write(t)
