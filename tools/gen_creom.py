"""Generate CreomModel.v (CR-EOMCC(2,3) corrections) and CreomReify.v from /repo (text only)."""
import sys, ast, re
sys.path.insert(0, "/verif/tools")
from tgen import *
from gen_eomccsd import HEAD
import gen_crcc_parse as gp
from gen_ccsd import hbar, BLK1, BLK2, B2
from gen_crcc import loops, CASE, F90
PY = "ccpy/moments/creomcc23.py"
def program():
    P = Prog("creom_", "(d : dims) (H0 H : ints) (T Y L : amps)", "d H0 H T Y L")
    P.load(PY); P.builtin["Integral.from_empty"] = lambda p, n, env, src, want: empty("X")
    env = {"T": amps("T"), "R": amps("Y"), "L": amps("L"), "system": None, "H": ints("H"), "H0": ints("H0")}
    H, T = env["H"], env["T"]
    def d3(name, axes, letters, sign, con, dim, v, vix, t, tix, line):
        node = ("sum", con, dim, ("mul", ("t", v, tuple(vix)), ("t", t, tuple(tix))))
        if sign < 0: node = ("neg", node)
        env[name] = P.define(name, Arr(axes, lambda ix, used: subst(node, dict(zip(letters, ix))), list(letters)), f"ccpy/hbar/diagonal.py, line {line}")
    def subst(n, m):
        if n[0] == "t": return ("t", n[1], tuple(m.get(x, x) for x in n[2]))
        if n[0] == "sum": return ("sum", n[1], n[2], subst(n[3], m))
        return (n[0],) + tuple(subst(x, m) for x in n[1:])
    lines = open(REPO + "ccpy/hbar/diagonal.py").read().split("\n")
    for fn, nm in (("A", "aaa"), ("B", "aab"), ("C", "abb"), ("D", "bbb")):
        for w in "VO":
            k, l = next((k + 1, l) for k, l in enumerate(lines) if re.match(rf"\s*d3{fn}_{w} = lambda", l))
            m = re.match(r"\s*d3\w_\w = lambda (\w), (\w), (\w): (-?)np\.dot\(H\.(\w+)\.oovv\[(.*?)\]\.T, T\.(\w+)\[(.*?)\]\)", l)
            letters = m.group(1) + m.group(2) + m.group(3)
            s, vi, s2, ti = m.group(5), m.group(6).split(", "), m.group(7), m.group(8).split(", ")
            assert s == s2
            con = "m" if w == "V" else "e"
            va, ta = ints_axes(s, "oovv"), amp_axes(s)
            cd = va[vi.index(":")]; assert ta[ti.index(":")] == cd
            vi = [con if x == ":" else x for x in vi]; ti = [con if x == ":" else x for x in ti]
            ax = {}
            for x, a in list(zip(vi, va)) + list(zip(ti, ta)): assert ax.setdefault(x, a) == a
            env[f"d3{nm}_{w.lower()}"] = base(f"crcc_d3{nm}_{w.lower()} d H0 H T L", [ax[x] for x in letters]) if True else d3(f"d3{nm}_{w.lower()}", [ax[x] for x in letters], letters, -1 if m.group(4) else 1, con, cd, f"i_{s}_oovv H", vi, f"x_{s} T", ti, k)
    for s in ("aa", "ab", "bb"):
        env[f"h_{s}_vvvv"] = base(f"crcc_h_{s}_vvvv H", [VIRT[s[0]], VIRT[s[1]]])
    src = open(REPO + PY).read()
    fn = [n for n in ast.parse(src).body if isinstance(n, ast.FunctionDef) and n.name == "calc_creomcc23"][0]
    out = {}
    def walk(body):
        for s in body:
            c = f"{PY}, calc_creomcc23, lines {s.lineno}-{s.end_lineno}"
            if isinstance(s, ast.Assign) and isinstance(s.targets[0], ast.Name) and s.targets[0].id == "X":
                env["X"] = P.val(s.value, env, c)
            elif isinstance(s, ast.Assign) and isinstance(s.targets[0], ast.Name) and s.targets[0].id.startswith("I2"):
                env[s.targets[0].id] = P.define(s.targets[0].id, P.expr(s.value, env, c), c.replace(f"lines {s.lineno}-{s.lineno}", f"line {s.lineno}"))
            elif isinstance(s, ast.Assign) and isinstance(s.value, ast.Call) and re.search("creomcc23.*opt", ast.unparse(s.value.func)):
                x = s.value.func.attr[9].upper()
                case(x, s.value.args, c)
            elif isinstance(s, ast.If): walk(s.orelse)
    def case(x, actual, cite):
        L = gp.Loops(f"creomcc23{x}_opt"); b = CASE[x]
        assert len(L.formals) == 8 + len(actual)
        av = {}
        for f, a in zip(L.formals[8:], actual):
            if f in ("omega", "r0"):
                assert ast.unparse(a) == f
                continue
            if ast.unparse(a).startswith("system"):
                assert ast.unparse(a) == {"noa": "system.noccupied_alpha", "nob": "system.noccupied_beta", "nua": "system.nunoccupied_alpha", "nub": "system.nunoccupied_beta"}[f]
                continue
            av[f] = Cell(P.expr(a, env, ""))
            assert av[f].arr.axes == L.dim(f), (x, f)
        axes = amp_axes(b)
        def el(nm, ix): return av[nm].arr.fn(list(ix), set("abcijkme"))
        def contraction(C, letters):
            tot = None
            for al, v, k, (an, ai), (bn, bi), _ in L.gemms(C, list("abc")):
                t = ("scale", al, ("sum", v, k, ("mul", el(an, ai), el(bn, bi))))
                tot = t if tot is None else ("add", tot, t)
            ls = [g[-1] for g in L.gemms(C, list("abc"))]
            return P.define(letters, Arr(axes, lambda ix, used: tot, list("abcijk")), f"{F90}, creomcc23{x}_opt, lines {ls[0][0]}-{ls[-1][1]} (array {C} at (a,b,c) for the loop indices i, j, k)")
        X = contraction("X3" + x, "X3" + b); Y = contraction("L3" + x, "L3" + b); W = contraction("Y3" + x, "Y3" + b)
        def signed(t):
            tot = None
            for sg, fs in L.expr(t):
                p = None
                for nm, ix in fs:
                    full = {"X3" + x: X, "L3" + x: Y, "Y3" + x: W}.get(nm.upper() if nm.upper() in ("X3" + x, "L3" + x, "Y3" + x) else nm)
                    e = full.arr.fn(list(ix) + list("ijk"), set()) if full else el(nm, ix)
                    p = e if p is None else ("mul", p, e)
                tot = (p if sg > 0 else ("neg", p)) if tot is None else ("add" if sg > 0 else "sub", tot, p)
            return tot
        def one(nm, node, ls):
            return P.define(nm, Arr(axes, lambda ix, used: node, list("abcijk")), f"{F90}, creomcc23{x}_opt, lines {ls[0]}-{ls[1]}")
        t1, t2, t3, t4 = (L.temps[f"temp{z}"] for z in (1, 2, 3, 4))
        one("M_" + b, signed(t1[2]), t1)
        l2 = one("L2_" + b, signed(t2[2]), t2); l1 = one("L1_" + b, signed(t3[2]), t3)
        one("N_" + b, signed(t4[2]), t4)
        lm = next(z for z in L.temps["lines"] if z[2].replace(" ", "").startswith("LM="))
        assert lm[2].replace(" ", "") == "LM=(r0*temp1+temp4)*(temp2+temp3)"
        one("L_" + b, ("add", l2.arr.fn(list("abcijk"), set()), l1.arr.fn(list("abcijk"), set())), (lm[0], lm[1]))
        prev = None
        for w, (a0, a1, t) in zip("ABCD", L.D):
            t = t.strip()
            rest = signed(t[1:].strip().lstrip("+") if w in "CD" else t) if not (w in "CD" and t[1:].strip()[0] == "-") else signed(t[1:].strip())
            if w in "CD":
                assert t[0] == "D" and t[1:].strip()[0] in "+-"
                rest = ("add", prev.arr.fn(list("abcijk"), set()), rest)
            prev = one(f"D{w}_{b}", rest, (a0, a1))
        acc = [z[2].replace(" ", "") for z in L.temps["lines"] if not z[2].startswith("LM ") and not z[2].startswith("LM=")]
        assert acc[-9:] == ["LM1=temp4*(temp2+temp3)"] + [f"{q}delta{w}={q}delta{w}+{m}/(omega+D)" for w in "ABCD" for q, m in (("", "LM"), ("d", "LM1"))], acc
        rng = {"aaa": [("i", "1", "noa"), ("j", "i+1", "noa"), ("k", "j+1", "noa"), ("a", "1", "nua"), ("b", "a+1", "nua"), ("c", "b+1", "nua")]}
        out[x] = (L.do, gp.joined(f"creomcc23{x}_opt"))
    walk(fn.body)
    return P, out, env
if __name__ == "__main__":
    out = sys.argv[1] if len(sys.argv) > 1 else "/verif/rocq/theories/"
    P, cases, env = program()
    t = (HEAD % ("creom", "Models ccpy/moments/creomcc23.py (calc_creomcc23, get_eomcc23_intermediates) and ccpy/lib/fortran/crcc_loops.f90 (creomcc23A_opt .. creomcc23D_opt).\n    H0: the Fock operator, H: the similarity-transformed Hamiltonian, T: cluster amplitudes, Y and L: right and left EOMCC amplitudes.")).replace("Require Import Reals Arith.", "Require Import Reals Arith List.").replace("TensorObjs.\n", "TensorObjs CrccModel.\nImport ListNotations.\n")
    t += P.text() + "\n"
    for x, (do, jl) in cases.items():
        b = CASE[x]
        t += f"(** {F90}, creomcc23{x}_opt: the do loops over i, j, k, a, b, c (lines {min(a for a, e, s in jl if s.startswith('do '))}-{max(a for a, e, s in jl if s.startswith('do '))}), innermost last *)\n"
        t += f"Definition creom_loop_{b} (d : dims) : list (nat * nat * nat * nat * nat * nat) :=\n  {loops(do)}.\n"
        g = "d H0 H T Y L"
        t += f"(** {F90}, creomcc23{x}_opt, lines {jl[0][0]}-{jl[-1][1]}: deltaA .. deltaD and ddeltaA .. ddeltaD *)\n"
        t += f"Definition creomcc23{x}_opt (d : dims) (H0 H : ints) (T Y L : amps) (omega r0 : R) : quad * quad :=\n  fold_left (fun s q => let '(a, b, c, i, j, k) := q in let LM := (r0 * creom_M_{b} {g} a b c i j k + creom_N_{b} {g} a b c i j k) * creom_L_{b} {g} a b c i j k in\n    let LM1 := creom_N_{b} {g} a b c i j k * creom_L_{b} {g} a b c i j k in\n    (quad_add (fst s) (" + ", ".join(f"LM / (omega + creom_D{w}_{b} {g} a b c i j k)" for w in "ABCD") + "),\n     quad_add (snd s) (" + ", ".join(f"LM1 / (omega + creom_D{w}_{b} {g} a b c i j k)" for w in "ABCD") + f"))) (creom_loop_{b} d) ((0, 0, 0, 0), (0, 0, 0, 0)).\n"
    t += """Definition both (f : quad -> quad -> quad) (p q : quad * quad) : quad * quad := (f (fst p) (fst q), f (snd p) (snd q)).
(** ccpy/moments/creomcc23.py, calc_creomcc23, lines 75-126: correction_A .. correction_D and dcorrection_A .. dcorrection_D (delta23, ddelta23) *)
Definition calc_creomcc23_delta (d : dims) (H0 H : ints) (T Y L : amps) (omega r0 : R) (use_RHF : bool) : quad * quad :=
  let A := creomcc23A_opt d H0 H T Y L omega r0 in let B := creomcc23B_opt d H0 H T Y L omega r0 in
  let C := creomcc23C_opt d H0 H T Y L omega r0 in let D := creomcc23D_opt d H0 H T Y L omega r0 in
  if use_RHF then both quad_add (both (fun p _ => quad_scale 2 p) A A) (both (fun p _ => quad_scale 2 p) B B)
  else both quad_add (both quad_add (both quad_add A B) C) D.
(** ccpy/moments/creomcc23.py, calc_creomcc23, lines 128-141 and 193: the total energies Ecrcc23 *)
Definition calc_creomcc23 (d : dims) (H0 H : ints) (T Y L : amps) (omega r0 reference_energy corr_energy : R) (use_RHF : bool) : quad :=
  let add x := reference_energy + (corr_energy + omega + x) in
  let '(a, b, c, e) := fst (calc_creomcc23_delta d H0 H T Y L omega r0 use_RHF) in (add a, add b, add c, add e).
"""
    open(out + "CreomModel.v", "w").write(t)
    # ---- the direction in which the similarity-transformed Hamiltonian moves with T
    n0 = len(P.order)
    G = {}
    def g(b, e):
        G[b] = P.define("G_" + b, P.expr(ast.parse(e, mode="eval").body, env, ""), f"derivative of the block {b} of the similarity-transformed Hamiltonian along Y")
    for s in "ab": g(f"{s}_ov", f"X.{s}.ov.copy()")
    ov = lambda out, s, t: f"np.einsum('{out}', X.{s}.ov, T.{t}) + np.einsum('{out}', H.{s}.ov, R.{t})"
    for s in "ab":
        g(f"{s}{s}_vooo", f"X.{s}{s}.vooo + " + ov("me,aeij->amij", s, s + s))
        g(f"{s}{s}_vvov", f"X.{s}{s}.vvov - np.einsum('me,abim->abie', H.{s}.ov, R.{s}{s})")
    g("ab_ovoo", "X.ab.ovoo + " + ov("me,ecjk->mcjk", "a", "ab"))
    g("ab_vooo", "X.ab.vooo + " + ov("me,aejk->amjk", "b", "ab"))
    g("ab_vvvo", "X.ab.vvvo - np.einsum('me,bcmk->bcek', H.a.ov, R.ab)")
    g("ab_vvov", "X.ab.vvov - np.einsum('me,bcjm->bcje', H.b.ov, R.ab)")
    gn = P.order[n0:]
    hdr = """From Coq Require Import Reals Arith List ZArith.
From Verif Require Import RSum IntegralsModel TensorObjs TensorAlg CrccModel CreomModel%s.
Import ListNotations.
"""
    t = "(** Generated by tools/gen_creom.py: the derivative of blocks of the CCSD similarity-transformed Hamiltonian along a direction Y, and its reification (proof support). *)\n" + hdr % " CcsdModel"
    t += "Local Open Scope R_scope.\n" + P.text(gn) + "\nLocal Open Scope nat_scope.\n"
    Q, hb = hbar()
    R = Reify(); R.alias = {"U": "T"}
    R.add(Q, tag="cd_")
    sub = {}
    for b in BLK1 + BLK2:
        s, xy = b.split("_")
        nm = hb.get(s).get(xy).name
        if nm.startswith("hb_"): sub[f"i_{b} H"] = "cd_" + nm.split(" ")[0]
    xn = [n for n in P.order if n.startswith("creom_X_")]
    R.add(P, subst=sub, names=xn + gn, tag="cd_")
    for b in B2: R.tid(f"x_{b} T", 2 * len(b)); R.tid(f"x_{b} Y", 2 * len(b))
    t += "\n".join(R.out) + "\n" + tables(R, params="(d : dims) (H : ints) (T Y : amps)", name="cd_")
    t += "Definition cd_dm (k : nat) : option nat := match k with " + " ".join(f"| {R.ids[f'x_{b} T']} => Some {R.ids[f'x_{b} Y']}" for b in B2) + " | _ => None end.\n"
    for b in G:
        n = 2 * len(b.split("_")[0]); ix = " ".join(map(str, range(n)))
        nm = hb.get(b.split("_")[0]).get(b.split("_")[1]).name.split(" ")[0]
        t += f"Definition cdh_{b} : ex := cd_{nm} {n} {ix}.\nDefinition cdg_{b} : ex := cd_creom_G_{b} {n} {ix}.\n"
    open(out + "CreomDir.v", "w").write(t)
    # ---- product rule with the direction as a variable
    P2 = Prog("creomx_", "(d : dims) (H G : ints) (T Y : amps)", "d H G T Y")
    e2 = {"G": ints("G"), "H": ints("H"), "T": amps("T"), "R": amps("Y")}
    xs = {}
    def x(b, e):
        s, xy = b.split("_")
        xs[env["X"].get(s).get(xy).name.split(" ")[0]] = P2.define("X_" + b, P2.expr(ast.parse(e, mode="eval").body, e2, ""), f"the intermediate {b} in terms of the derivative of the similarity-transformed Hamiltonian").name
    ov = lambda out, s, t: f"np.einsum('{out}', G.{s}.ov, T.{t}) - np.einsum('{out}', H.{s}.ov, R.{t})"
    for s in "ab": x(f"{s}_ov", f"G.{s}.ov.copy()")
    for s in "ab":
        x(f"{s}{s}_vooo", f"G.{s}{s}.vooo - " + ov("me,aeij->amij", s, s + s))
        x(f"{s}{s}_vvov", f"G.{s}{s}.vvov + np.einsum('me,abim->abie', H.{s}.ov, R.{s}{s})")
    x("ab_ovoo", "G.ab.ovoo - " + ov("me,ecjk->mcjk", "a", "ab"))
    x("ab_vooo", "G.ab.vooo - " + ov("me,aejk->amjk", "b", "ab"))
    x("ab_vvvo", "G.ab.vvvo + np.einsum('me,bcmk->bcek', H.a.ov, R.ab)")
    x("ab_vvov", "G.ab.vvov + np.einsum('me,bcjm->bcje', H.b.ov, R.ab)")
    R = Reify()
    R.add(P2, tag="cp_")
    for k, v in xs.items(): R.known[k] = "cp_" + v.split(" ")[0]
    mn = [n for n in P.order if re.match(r"creom_(I2|X3|M_)", n)]; nn = [n for n in P.order if re.match(r"creom_(Y3|N_)", n)]
    R.add(P, names=mn + nn, tag="cp_")
    for b in B2: R.tid(f"x_{b} T", 2 * len(b)); R.tid(f"x_{b} Y", 2 * len(b))
    for b in G:
        n = 2 * len(b.split("_")[0]); R.tid(f"i_{b} H", n); R.tid(f"i_{b} G", n)
    def inner(h, closed=False):
        f, v = h.split(" ")
        if f.startswith("x_"): return gens(h)
        if f in ("i_aa_vooo", "i_bb_vooo"): return [(h, [0, 1, 3, 2], False)]
        if f in ("i_aa_vvov", "i_bb_vvov"): return [(h, [1, 0, 2, 3], False)]
        return []
    t = "(** Generated by tools/gen_creom.py: moments and their derivative, with the similarity-transformed Hamiltonian and its direction as variables (proof support). *)\n" + hdr % ""
    t += "Local Open Scope R_scope.\n" + P2.text() + "\nLocal Open Scope nat_scope.\n" + "\n".join(R.out) + "\n"
    t += tables(R, gen=inner, params="(d : dims) (H G : ints) (T Y : amps)", name="cp_")
    t += "Definition cp_dm (k : nat) : option nat := match k with " + " ".join(f"| {R.ids[f'x_{b} T']} => Some {R.ids[f'x_{b} Y']}" for b in B2) + " " + " ".join(f"| {R.ids[f'i_{b} H']} => Some {R.ids[f'i_{b} G']}" for b in G) + " | _ => None end.\n"
    for b in CASE.values():
        t += f"Definition cpm_{b} : ex := cp_creom_M_{b} 6 0 1 2 3 4 5.\nDefinition cpn_{b} : ex := cp_creom_N_{b} 6 0 1 2 3 4 5.\n"
    fields = re.findall(r"(i_\w+) : mat(\d)", open("/verif/rocq/theories/TensorObjs.v").read())
    t += "(** The derivative of the blocks the moments read; the other blocks are not used *)\nDefinition creom_dir (d : dims) (H0 H : ints) (T Y L : amps) : ints := mkInts " + " ".join(f"(creom_G_{f[2:]} d H0 H T Y L)" if f[2:] in G else ("(fun _ _ => 0%R)" if n == "2" else "(fun _ _ _ _ => 0%R)") for f, n in fields) + ".\n"
    xm = {k: v for k, v in xs.items()}
    t += "Local Open Scope R_scope.\nSection X.\nVariables (d : dims) (H0 H : ints) (T Y L : amps).\nNotation G := (creom_dir d H0 H T Y L).\n"
    for k, v in xs.items():
        b = re.match(r"creom_X_(a|b|aa|ab|bb)_(\w{2,4}?)(_\d)?$", k); bb = b.group(1) + "_" + b.group(2)
        ix = "p q r s"[:4 * len(b.group(1)) - 1]
        t += f"Lemma xs_{bb} : {k} d H0 H T Y L = {v.split(' ')[0]} d H G T Y.\nProof. extensionality p. extensionality q. " + ("extensionality r. extensionality s. " if len(b.group(1)) == 2 else "") + f"unfold {v.split(' ')[0]}, creom_dir; cbn [" + " ".join(f for f, n in fields if f[2:] in G) + f"]. unfold creom_G_{bb}" + (", creom_G_a_ov, creom_G_b_ov" if len(b.group(1)) == 2 else "") + ". ring. Qed.\n"
    for b in CASE.values():
        t += f"Lemma cn_{b} a b c i j k : creom_N_{b} d H0 H T Y L a b c i j k = den (denv [noa d; nua d; nob d; nub d]) (tenv (cp_arrays d H G T Y)) cpn_{b} (venv [a; b; c; i; j; k]).\nProof. unfold creom_N_{b}, creom_Y3{b}. rewrite ?" + ", ?".join(f"xs_{q}" for q in ("aa_vooo", "aa_vvov", "bb_vooo", "bb_vvov", "ab_ovoo", "ab_vooo", "ab_vvvo", "ab_vvov")) + ". reflexivity. Qed.\n"
    t += "End X.\n"
    t = t.replace("List ZArith.\n", "List ZArith FunctionalExtensionality.\n").replace("CreomModel.\n", "CreomModel CreomDir.\n", 1)
    open(out + "CreomChain.v", "w").write(t)
