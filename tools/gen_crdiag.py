"""The part of the triples equations linear in one block of triples, as a polynomial in the similarity-transformed Hamiltonian (used by gen_crproofs.py)."""
import sys
sys.path.insert(0, "/verif/tools")
from tgen import *
V, O = "abc", "ijk"
def diag(b):
    """list of (coefficient, summed [(letter, dim)], factors [(head, ix)], replacement letter -> new letter)"""
    out = []
    def y(rep): return tuple(rep.get(x, x) for x in V + O)
    for x in range(3):
        s = b[x]
        out.append((F(1), [("e", VIRT[s])], [(f"i_{s}_vv H", (V[x], "e"))], {V[x]: "e"}))
        out.append((F(-1), [("m", OCC[s])], [(f"i_{s}_oo H", ("m", O[x]))], {O[x]: "m"}))
    for x in range(3):
        for z in range(x + 1, 3):
            s = b[x] + b[z]; q = F(1, 2) if b[x] == b[z] else F(1)
            out.append((q, [("e", VIRT[b[x]]), ("f", VIRT[b[z]])], [(f"i_{s}_vvvv H", (V[x], V[z], "e", "f"))], {V[x]: "e", V[z]: "f"}))
            out.append((q, [("m", OCC[b[x]]), ("n", OCC[b[z]])], [(f"i_{s}_oooo H", ("m", "n", O[x], O[z]))], {O[x]: "m", O[z]: "n"}))
    for x in range(3):
        for z in range(3):
            sv, so = b[x], b[z]
            sm = [("e", VIRT[sv]), ("m", OCC[so])]; rep = {V[x]: "e", O[z]: "m"}
            if sv == so: out.append((F(1), sm, [(f"i_{sv}{so}_voov H", (V[x], "m", O[z], "e"))], rep))
            elif sv == "a": out.append((F(-1), sm, [("i_ab_vovo H", (V[x], "m", "e", O[z]))], rep))
            else: out.append((F(-1), sm, [("i_ab_ovov H", ("m", V[x], O[z], "e"))], rep))
    for x in range(3):
        for z in range(x + 1, 3):
            p = b[x] + b[z]
            for w in range(3):
                r = b[w]
                if p == "aa" or p == "bb":
                    if r != p[0]: continue
                    out.append((F(-1, 2), [("m", OCC[r]), ("n", OCC[r]), ("e", VIRT[r]), ("f", VIRT[r])], [(f"i_{p}_oovv H", tuple("mnef")), (f"x_{p} T", (V[x], V[z], "m", O[w]))], {V[x]: "e", V[z]: "f", O[w]: "n"}))
                    out.append((F(-1, 2), [("m", OCC[r]), ("n", OCC[r]), ("e", VIRT[r]), ("f", VIRT[r])], [(f"i_{p}_oovv H", tuple("mnef")), (f"x_{p} T", ("e", V[w], O[x], O[z]))], {V[w]: "f", O[x]: "m", O[z]: "n"}))
                else:
                    m = "b" if r == "a" else "a"
                    mn = ("m", "n") if r == "b" else ("n", "m")
                    out.append((F(-1), [("m", OCC[m]), ("n", OCC[r]), ("e", VIRT["a"]), ("f", VIRT["b"])],
                        [("i_ab_oovv H", mn + ("e", "f")), ("x_ab T", (V[x], V[z]) + (("m", O[w]) if r == "b" else (O[w], "m")))], {V[x]: "e", V[z]: "f", O[w]: "n"}))
                    ef = ("e", "f") if r == "b" else ("f", "e")
                    out.append((F(-1), [("m", OCC["a"]), ("n", OCC["b"]), ("e", VIRT[m]), ("f", VIRT[r])],
                        [("i_ab_oovv H", ("m", "n") + ef), ("x_ab T", (("e", V[w]) if r == "b" else (V[w], "e")) + (O[x], O[z]))], {V[w]: "f", O[x]: "m", O[z]: "n"}))
    return out
def term(t, Y):
    q, sm, fs, rep = t
    n = None
    for h, ix in fs: n = ("t", h, ix) if n is None else ("mul", n, ("t", h, ix))
    n = ("mul", n, ("t", Y, tuple(rep.get(x, x) for x in V + O)))
    for v, dd in reversed(sm): n = ("sum", v, dd, n)
    return ("scale", q, n) if q != 1 else n
def expr(b, Y):
    tot = None
    for t in diag(b):
        n = term(t, Y); tot = n if tot is None else ("add", tot, n)
    return tot
