"""Symbolic execution of the numpy/einsum functions of /repo (read as text) into Gallina definitions, and reification of those definitions
into the expression type [ex] of rocq/theories/TensorAlg.v.

Arrays are mutable cells, so aliasing (H = H0, X.b.vv = X.a.vv, in-place +=) is followed as Python does it.  Every assignment becomes one
Gallina definition that cites its source lines.  Contracted axes must have equal lengths (asserted)."""
import ast, fractions
F = fractions.Fraction
REPO = "/repo/"

VIRT = {"a": "nua", "b": "nub"}
OCC = {"a": "noa", "b": "nob"}
DIMS = ["noa", "nua", "nob", "nub"]

# ---- nodes: ('c',q) ('t',head,ix) ('add',a,b) ('sub',a,b) ('neg',a) ('mul',a,b) ('scale',q,a) ('sum',v,dim,a)
def frac(x):
    f = F(x).limit_denominator(10000)
    assert abs(float(f) - x) < 1e-12, x
    return f

class Arr:
    """value: axes and element function fn(ix, used) -> node"""
    def __init__(self, axes, fn, letters=None):
        self.axes, self.fn, self.letters = axes, fn, letters
class Cell:
    def __init__(self, arr, name=None):
        self.arr, self.name = arr, name
class Scal:
    """zero-dimensional array"""
class Obj:
    def __init__(self, name, maker=None):
        self.__dict__["_name"] = name
        self.__dict__["_maker"] = maker
        self.__dict__["_d"] = {}
    def get(self, k):
        if k not in self._d:
            assert self._maker, (self._name, k)
            self._d[k] = self._maker(k)
        return self._d[k]
    def set(self, k, v):
        self._d[k] = v

def base(head, axes):
    return Cell(Arr(axes, lambda ix, used: ("t", head, tuple(ix))), head)

def amp_axes(b):
    return [VIRT[c] for c in b] + [OCC[c] for c in b]
def amps(var, field="x"):
    """ClusterOperator-like object"""
    return Obj(var, lambda k: base(f"{field}_{k} {var}", amp_axes(k)))
def ints_axes(s, xy):
    n = len(s)
    return [(VIRT if c == "v" else OCC)[s[i % n]] for i, c in enumerate(xy)]
def ints(var, field="i"):
    return Obj(var, lambda s: Obj(f"{var}.{s}", lambda xy: base(f"{field}_{s}_{xy} {var}", ints_axes(s, xy))))
def empty(name):
    """Integral.from_empty / anything whose blocks are assigned before use"""
    return Obj(name, lambda s: Obj(f"{name}.{s}"))

class Prog:
    """A family of definitions sharing the parameter list [ctx] (Coq binders) / [args] (their names)."""
    def __init__(self, prefix, ctx, args):
        self.prefix, self.ctx, self.args = prefix, ctx, args
        self.defs = {}          # name -> (params, node, axes, src)
        self.order = []
        self.count = {}
        self.funcs = {}
        self.builtin = {}
        self.calls = []
        self.mods = {}
    # -- definitions
    def define(self, want, arr, src):
        k = self.count.get(want, 0)
        self.count[want] = k + 1
        name = f"{self.prefix}{want}" + (f"_{k}" if k else "")
        ix = self.letters(arr)
        node = arr.fn(ix, set(ix))
        self.defs[name] = (ix, node, arr.axes, src)
        self.order.append(name)
        head = name + " " + self.args
        return Cell(Arr(arr.axes, lambda jx, used: ("t", head, tuple(jx)), ix), head)
    def letters(self, arr):
        if arr.letters and len(set(arr.letters)) == len(arr.axes):
            return list(arr.letters)
        o, v, out = "ijklmn", "abcdef", []
        for d in arr.axes:
            pool = o if d.startswith("no") else v
            out.append(next(c for c in pool if c not in out))
        return out
    # -- running
    def load(self, path):
        src = open(REPO + path).read()
        for n in ast.parse(src).body:
            if isinstance(n, ast.FunctionDef):
                self.funcs[n.name] = (n, path)
    def call(self, fname, args, consts=None, path=None):
        fn, p = self.funcs[fname]
        env = {}
        names = [a.arg for a in fn.args.args]
        assert len(args) <= len(names), (fname, names)
        for a, v in zip(names, args):
            env[a] = v
        return self.run(fn.body, env, p, fname)
    def run(self, body, env, path, fname):
        for s in body:
            r = self.stmt(s, env, path, fname)
            if r is not None:
                return r[0]
        return None
    def stmt(self, s, env, path, fname):
        src = f"{path}, {fname}, " + (f"line {s.lineno}" if s.lineno == s.end_lineno else f"lines {s.lineno}-{s.end_lineno}")
        if isinstance(s, ast.Return):
            if s.value is None:
                return (None,)
            if isinstance(s.value, ast.Call) and isinstance(s.value.func, ast.Attribute) and s.value.func.attr == "flatten":
                return (self.val(s.value.func.value, env, src),)
            if isinstance(s.value, ast.Tuple):
                return (tuple(self.val(e, env, src) for e in s.value.elts),)
            return (self.val(s.value, env, src),)
        if isinstance(s, ast.If):
            t = self.test(s.test, env)
            for x in (s.body if t else s.orelse):
                r = self.stmt(x, env, path, fname)
                if r is not None:
                    return r
            return None
        if isinstance(s, ast.Expr):
            return None
        if isinstance(s, (ast.Import, ast.ImportFrom, ast.Pass)):
            return None
        if isinstance(s, ast.Delete):
            return None
        if isinstance(s, ast.Assign):
            assert len(s.targets) == 1
            t = s.targets[0]
            if isinstance(t, ast.Tuple) and isinstance(s.value, ast.Attribute) and s.value.attr == "shape":
                return None
            v = self.val(s.value, env, src, want=self.want(t))
            if isinstance(t, ast.Tuple):
                for e, w in zip(t.elts, v):
                    self.assign(e, w, env, src)
            else:
                self.assign(t, v, env, src)
            return None
        if isinstance(s, ast.AugAssign):
            cell = self.val(s.target, env, src)
            if isinstance(cell, float):      # x = 0.0 followed by x += array
                new = self.expr(s.value, env, src)
                q, op0 = frac(cell), {ast.Add: "add", ast.Sub: "sub"}[type(s.op)]
                self.assign(s.target, self.define(self.want(s.target), Arr(new.axes, lambda ix, used: (op0, ("c", q), new.fn(ix, used)), new.letters), src), env, src)
                return None
            old = cell.arr
            new = self.expr(s.value, env, src)
            assert old.axes == new.axes, (src, old.axes, new.axes)
            op = {ast.Add: "add", ast.Sub: "sub"}.get(type(s.op))
            if op is None:
                assert isinstance(s.op, ast.Mult)
            arr = Arr(old.axes, lambda ix, used: (op, old.fn(ix, used), new.fn(ix, used)), old.letters)
            c = self.define(self.want(s.target), arr, src)
            cell.arr, cell.name = c.arr, c.name
            return None
        raise ValueError(src + ": " + ast.unparse(s))
    def want(self, t):
        if isinstance(t, ast.Tuple):
            return None
        return dotted(t).replace(".", "_")
    def test(self, t, env):
        if isinstance(t, ast.Name) and t.id in env and isinstance(env[t.id], bool):
            return env[t.id]
        if isinstance(t, ast.UnaryOp) and isinstance(t.op, ast.Not):
            return not self.test(t.operand, env)
        k = "test:" + ast.unparse(t)
        if k in env:
            return env[k]
        if k in self.builtin:
            return self.builtin[k]
        raise ValueError(ast.unparse(t))
    def assign(self, t, v, env, src):
        if isinstance(t, ast.Name):
            env[t.id] = v
        elif isinstance(t, ast.Attribute):
            self.val(t.value, env, src).set(t.attr, v)
        elif isinstance(t, ast.Subscript):
            self.val(t.value, env, src).set(t.slice.value, v)
        else:
            raise ValueError(src)
    def val(self, n, env, src, want=None):
        """evaluate to an object or cell (sharing cells for plain names)"""
        if isinstance(n, ast.Name):
            return env[n.id]
        if isinstance(n, ast.Attribute) and not (isinstance(n.value, ast.Name) and n.value.id == "np"):
            return self.val(n.value, env, src).get(n.attr)
        if isinstance(n, ast.Subscript) and isinstance(n.slice, ast.Constant) and isinstance(n.slice.value, str):
            return self.val(n.value, env, src).get(n.slice.value)
        if isinstance(n, ast.Dict):
            o = Obj("dict")
            for k, x in zip(n.keys, n.values):
                o.set(k.value, self.val(x, env, src))
            return o
        if isinstance(n, ast.Constant):
            return n.value
        if isinstance(n, ast.Call):
            name = dotted(n.func)
            if name in self.builtin:
                return self.builtin[name](self, n, env, src, want)
            last = name.split(".")[-1]
            if last in self.funcs:
                return self.call(last, [self.val(a, env, src) for a in n.args])
        a = self.expr(n, env, src)
        return self.define(want or "tmp", a, src)
    # -- array expressions
    def expr(self, n, env, src):
        if isinstance(n, ast.BinOp) and isinstance(n.op, (ast.Add, ast.Sub)):
            x, y = self.expr(n.left, env, src), self.expr(n.right, env, src)
            assert x.axes == y.axes, (src, x.axes, y.axes, ast.unparse(n))
            op = "add" if isinstance(n.op, ast.Add) else "sub"
            return Arr(x.axes, lambda ix, used: (op, x.fn(ix, used), y.fn(ix, used)), x.letters or y.letters)
        if isinstance(n, ast.BinOp) and isinstance(n.op, ast.Mult):
            c = const(n.left)
            e = n.right
            if c is None:
                c, e = const(n.right), n.left
            assert c is not None, src
            x = self.expr(e, env, src)
            return Arr(x.axes, lambda ix, used: ("scale", frac(c), x.fn(ix, used)), x.letters)
        if isinstance(n, ast.BinOp) and isinstance(n.op, ast.Div):
            c = const(n.right)
            assert c is not None, src
            x = self.expr(n.left, env, src)
            return Arr(x.axes, lambda ix, used: ("scale", 1 / frac(c), x.fn(ix, used)), x.letters)
        if isinstance(n, ast.UnaryOp):
            x = self.expr(n.operand, env, src)
            if isinstance(n.op, ast.UAdd):
                return x
            return Arr(x.axes, lambda ix, used: ("neg", x.fn(ix, used)), x.letters)
        if isinstance(n, ast.Call):
            fn = n.func
            if isinstance(fn, ast.Attribute) and fn.attr == "einsum":
                return self.einsum(n, env, src)
            if isinstance(fn, ast.Attribute) and fn.attr == "eye":
                d = env.get("dim:" + ast.unparse(n.args[0])) or self.builtin["dim:" + ast.unparse(n.args[0])]
                return Arr([d, d], lambda ix, used: ("t", "delta", tuple(ix)))
            if isinstance(fn, ast.Attribute) and fn.attr == "transpose":
                if isinstance(fn.value, ast.Name) and fn.value.id == "np":
                    x, perm = n.args[0], [e.value for e in n.args[1].elts] if len(n.args) > 1 else []
                else:
                    x, perm = fn.value, ([e.value for e in n.args[0].elts] if n.args and isinstance(n.args[0], ast.Tuple) else [e.value for e in n.args])
                x = self.expr(x, env, src)
                if not perm:
                    perm = list(range(len(x.axes)))[::-1]
                assert sorted(perm) == list(range(len(x.axes))), src
                inv = [perm.index(k) for k in range(len(perm))]
                return Arr([x.axes[p] for p in perm], lambda ix, used: x.fn([ix[inv[k]] for k in range(len(perm))], used))
            if isinstance(fn, ast.Attribute) and fn.attr == "copy" and not n.args:
                return self.expr(fn.value, env, src)
            v = self.val(n, env, src)
            return v.arr
        v = self.val(n, env, src)
        assert isinstance(v, Cell), (src, ast.unparse(n), v)
        return v.arr
    def einsum(self, n, env, src):
        subs = n.args[0].value.replace(" ", "")
        ins, out = subs.split("->")
        ins = ins.split(",")
        ops = [self.expr(x, env, src) for x in n.args[1:]]
        dims = {}
        assert len(ins) == len(ops), (src, subs)
        for s, a in zip(ins, ops):
            assert len(s) == len(a.axes), (src, subs, a.axes)
            for c, d in zip(s, a.axes):
                assert dims.setdefault(c, d) == d, (src, subs, c, d, dims[c])
        con = []
        for s in ins:
            for c in s:
                if c not in out and c not in con:
                    con.append(c)
        def fn(ix, used):
            m, u, vs = dict(zip(out, ix)), set(used) | set(ix), []
            for c in con:
                v = c
                while v in u:
                    v += "'"
                u.add(v); m[c] = v; vs.append((v, dims[c]))
            body = None
            for s, a in zip(ins, ops):
                f = a.fn([m[c] for c in s], u)
                body = f if body is None else ("mul", body, f)
            for v, d in reversed(vs):
                body = ("sum", v, d, body)
            return body
        return Arr([dims[c] for c in out], fn, list(out))
    # -- printing
    def text(self, names=None):
        out = []
        for name in (names or self.order):
            ix, node, axes, src = self.defs[name]
            typ = f"mat{len(axes)}" if axes else "R"
            fun = f"fun {' '.join(map(var, ix))} =>\n  " if ix else "\n  "
            out.append(f"(** {src} *)\nDefinition {name} {self.ctx} : {typ} := {fun}{gal(node, 0)}.")
        return "\n".join(out)

def dotted(n):
    if isinstance(n, ast.Name):
        return n.id
    if isinstance(n, ast.Attribute):
        return dotted(n.value) + "." + n.attr
    if isinstance(n, ast.Subscript):
        return dotted(n.value) + "." + n.slice.value
    raise ValueError(ast.dump(n))
def const(n):
    if isinstance(n, ast.Constant) and isinstance(n.value, (int, float)):
        return float(n.value)
    if isinstance(n, ast.UnaryOp):
        c = const(n.operand)
        return None if c is None else (-c if isinstance(n.op, ast.USub) else c)
    if isinstance(n, ast.BinOp) and isinstance(n.op, (ast.Div, ast.Mult)):
        a, b = const(n.left), const(n.right)
        return None if a is None or b is None else (a / b if isinstance(n.op, ast.Div) else a * b)
    return None
def qz(q):
    return f"{q.numerator} / {q.denominator}" if q >= 0 else f"(-{-q.numerator}) / {q.denominator}"
def dimtxt(d):
    return f"({d} d)"
def var(v):
    return "d" + v if v.startswith("d") else v      # d is the record of dimensions
# precedence: 0 sum, 1 term, 2 factor
def gal(n, p):
    k = n[0]
    if k == "t":
        s = f"{n[1]} {' '.join(map(var, n[2]))}" if n[2] else n[1]
        return s if p < 2 else f"({s})"
    if k == "c":
        return f"({qz(n[1])})"
    if k in ("add", "sub"):
        s = f"{gal(n[1], 0)} {'+' if k == 'add' else '-'} {gal(n[2], 1)}"
        return s if p == 0 else f"({s})"
    if k == "neg":
        return f"(- {gal(n[1], 2)})"
    if k == "mul":
        s = f"{gal(n[1], 1) if n[1][0] == 'mul' else gal(n[1], 2)} * {gal(n[2], 2)}"
        return s if p < 2 else f"({s})"
    if k == "scale":
        s = f"{qz(n[1])} * {gal(n[2], 2)}"
        return s if p < 2 else f"({s})"
    if k == "sum":
        s = f"sumn {dimtxt(n[2])} (fun {var(n[1])} => {gal(n[3], 0)})"
        return s if p < 2 else f"({s})"
    raise ValueError(n)

class Reify:
    """ex-builders mirroring the definitions: r_NAME n i j ... : ex, with fresh ids from n upwards."""
    def __init__(self, tensors=None):
        self.ids = {}
        self.tens = []          # (coq head, arity)
        self.width = {}
        self.out = []
        self.known = {}
        self.alias = {}         # variable -> variable it stands for
    def tid(self, head, ar):
        if " " in head:
            f, v = head.split(" ")
            head = f + " " + self.alias.get(v, v)
        if head not in self.ids:
            self.ids[head] = len(self.tens)
            self.tens.append((head, ar))
        return self.ids[head]
    def add(self, prog, subst=None, names=None, tag="r_"):
        """subst maps base heads of prog (e.g. 'i_aa_oovv H') to (builder name) for inlining another program's result"""
        for name in (names or prog.order):
            ix, node, axes, src = prog.defs[name]
            w = [0]
            body = self.r(node, {v: v for v in ix}, 0, w, prog, subst or {}, tag)
            self.width[tag + name] = w[0]
            self.known[name] = tag + name
            ps = f" (z {' '.join(ix)} : nat)" if ix else " (z : nat)"
            self.out.append(f"Definition {tag}{name}{ps} : ex := {body}.")
    def r(self, n, env, k, w, prog, subst, tag):
        """k: ids n..n+k-1 are taken; w[0]: width used so far"""
        w[0] = max(w[0], k)
        t = n[0]
        if t == "t":
            head, ix = n[1], [env[x] for x in n[2]]
            nm = head.split(" ")[0]
            b = None
            if nm in self.known:
                b = self.known[nm]
            elif head in subst:
                b = subst[head]
            if b is not None:
                w[0] = max(w[0], k + self.width[b])
                return f"({b} ({k} + z) {' '.join(ix)})"
            i = self.tid(head, len(ix))
            return f"(ET {i} [{'; '.join(ix)}])"
        if t == "c":
            return f"(EC ({n[1].numerator}) {n[1].denominator})"
        if t in ("add", "sub"):
            return f"({'EAdd' if t == 'add' else 'ESub'} {self.r(n[1], env, k, w, prog, subst, tag)} {self.r(n[2], env, k, w, prog, subst, tag)})"
        if t == "neg":
            return f"(EOpp {self.r(n[1], env, k, w, prog, subst, tag)})"
        if t == "mul":
            w1 = [k]
            a = self.r(n[1], env, k, w1, prog, subst, tag)
            w2 = [w1[0]]
            b = self.r(n[2], env, w1[0], w2, prog, subst, tag)
            w[0] = max(w[0], w2[0])
            return f"(EMul {a} {b})"
        if t == "scale":
            return f"(EScale ({n[1].numerator}) {n[1].denominator} {self.r(n[2], env, k, w, prog, subst, tag)})"
        if t == "sum":
            e = dict(env); e[n[1]] = f"({k} + z)"
            return f"(ESum ({k} + z) {DIMS.index(n[2])} {self.r(n[3], e, k + 1, w, prog, subst, tag)})"
        raise ValueError(n)

    def node(self, bname, ix, node):
        """builder for a stand-alone node"""
        w = [0]
        body = self.r(node, {v: v for v in ix}, 0, w, None, {}, "")
        self.width[bname] = w[0]
        ps = f" (z {' '.join(ix)} : nat)" if ix else " (z : nat)"
        self.out.append(f"Definition {bname}{ps} : ex := {body}.")
def dot(L, Rh, blocks, spin_sum=None):
    """weighted inner product node of two amplitude objects given as dict block -> head"""
    tot = None
    v, o = "abc", "ijk"
    for b in blocks:
        n = len(b)
        ix = tuple(v[:n] + o[:n])
        axes = amp_axes(b)
        t = ("mul", ("t", L[b], ix), ("t", Rh[b], ix))
        for x, dd in reversed(list(zip(ix, axes))):
            t = ("sum", x, dd, t)
        w = weight(b)
        if w != 1:
            t = ("scale", F(1, w), t)
        tot = t if tot is None else ("add", tot, t)
    return tot
def weight(b):
    import math
    na, nb = b.count("a"), b.count("b")
    return (math.factorial(na) * math.factorial(nb)) ** 2

# ---- symmetry generators of the base arrays
def gens(head, anti=True, closed=False):
    """generators (target head, positions, sign) for a base array; same-spin antisymmetry, optionally closed-shell spin symmetry"""
    f, var = head.split(" ")
    out = []
    parts = f.split("_")
    if parts[0] == "x":
        sp = parts[1]; n = len(sp)
        pairs = [(k, k + 1) for k in range(n - 1) if sp[k] == sp[k + 1]]
        for off in (0, n):
            for (p, q) in pairs:
                perm = list(range(2 * n)); perm[off + p], perm[off + q] = perm[off + q], perm[off + p]
                out.append((head, perm, False))
    if parts[0] == "i" and len(parts[1]) == 2:
        sp, xy = parts[1], parts[2]
        if sp[0] == sp[1]:
            out.append((f"i_{sp}_{xy[1]}{xy[0]}{xy[2:]} {var}", [1, 0, 2, 3], False))
            out.append((f"i_{sp}_{xy[:2]}{xy[3]}{xy[2]} {var}", [0, 1, 3, 2], False))
    if closed:
        if parts[0] == "x":
            sp = parts[1]
            if sp in ("b", "bb", "bbb"): out.append((f"x_{'a' * len(sp)} {var}", list(range(2 * len(sp))), True))
            if sp == "ab": out.append((head, [1, 0, 3, 2], True))
            if sp == "abb": out.append((f"x_aab {var}", [1, 2, 0, 4, 5, 3], True))
        if parts[0] == "i":
            sp, xy = parts[1], parts[2]
            if sp in ("b", "bb"): out.append((f"i_{'a' * len(sp)}_{xy} {var}", list(range(2 * len(sp))), True))
            if sp == "ab": out.append((f"i_ab_{xy[1]}{xy[0]}{xy[3]}{xy[2]} {var}", [1, 0, 3, 2], True))
    return out
def ctx_head(head):
    return head
def tables(R, gen=gens, name="", params="", closed=False):
    """Coq text: list of arrays and list of generating symmetries"""
    gs = []
    k = 0
    while k < len(R.tens):
        h, ar = R.tens[k]; k += 1
        if h == "delta": continue
        for (h2, perm, s) in gen(h, closed=closed):
            i2 = R.tid(h2, ar)
            gs.append(f"({R.ids[h]}, ({i2}, [{'; '.join(map(str, perm))}], {'true' if s else 'false'}))")
    t = f"Definition {name}arrays {params} := [" + ";\n  ".join(f"ap{ar} ({h})" for h, ar in R.tens) + "].\n"
    t += f"Definition {name}gens : list (nat * (nat * list nat * bool)) := [" + ";\n  ".join(gs) + "].\n"
    t += f"Definition {name}tab := Eval vm_compute in symtab {name}gens {len(R.tens)}.\n"
    return t
