"""Generate SpinFlip3Fixed.v, SectorSfxReify.v, SectorSfxFock.v and SectorSfxSkel.v: the spin-flip (2,3) sigma vector of /repo with the edits of EDITS applied to
the text of the program in memory, its reified form, its components in second quantisation and its dependence on the blocks of the Hamiltonian."""
import sys
sys.path.insert(0, "/verif/tools")
import tgen, gen_sector3, gen_sec3fock
from gen_sector3 import *
I_, P_ = METHODS["sft"]["files"]
DROP = ['0.5 * np.einsum("me,ecjk->mcjk", H.a.ov, R.ab, optimize=True)', '0.5 * np.einsum("me,aeik->amik", H.b.ov, R.ab, optimize=True)', '-np.einsum("me,acmk->acek", H.a.ov, R.ab, optimize=True)',
  'np.einsum("me,ecjk->mcjk", H.b.ov, R.bb, optimize=True)', '-0.5 * np.einsum("me,bcmk->bcek", H.b.ov, R.bb, optimize=True)', '-0.5 * np.einsum("me,bcjm->bcje", H.a.ov, R.bb, optimize=True)']
ADD = [('+ 0.25 * np.einsum("mnef,efcjnk->mcjk", H.aa.oovv, R.aab, optimize=True)', '+ 0.5 * np.einsum("mcef,efjk->mcjk", H.ab.ovvv, R.ab, optimize=True)'),
  ('- 0.5 * np.einsum("mnef,afcmnk->acek", H.aa.oovv, R.aab, optimize=True)', '- np.einsum("mcef,afmk->acek", H.ab.ovvv, R.ab, optimize=True)'),
  ('+ np.einsum("nmfe,fecnjk->mcjk", H.ab.oovv, R.abb, optimize=True)', '- np.einsum("nmke,ecjn->mcjk", H.ab.ooov, R.bb, optimize=True)'),
  ('- 0.5 * np.einsum("nmfe,fbcnmk->bcek", H.ab.oovv, R.abb, optimize=True)', '+ 0.5 * np.einsum("mnke,bcnm->bcek", H.ab.ooov, R.bb, optimize=True)')]
EDITS = [(I_, x, "0.0 * " + x.lstrip("-")) for x in DROP] + [(I_, x, x + " " + y) for x, y in ADD] + [(P_, "(2.0 / 12.0) * np.einsum(\"mcie,abemjk->abcijk\"", "(3.0 / 12.0) * np.einsum(\"mcie,abemjk->abcijk\"")]
def load(self, path):
    src = open(tgen.REPO + path).read()
    for f, x, y in EDITS:
        if f == path:
            assert src.count(x) == 1, (x, src.count(x))
            src = src.replace(x, y)
    for n in tgen.ast.parse(src).body:
        if isinstance(n, tgen.ast.FunctionDef): self.funcs[n.name] = (n, path)
tgen.Prog.load = load
def sigma_x(m):
    P = Prog("sfxr_", f"(d : dims) (H : ints) (T : amps) (R : {m}v)", "d H T R")
    for f in METHODS[m]["files"]: P.load(f)
    P.builtin["np.array"] = lambda *a: None
    def zl(p, n, env, src, want):
        a = p.expr(n.args[0], env, src)
        return Cell(Arr(a.axes, lambda ix, used: ("c", F(0)), a.letters), None)
    P.builtin["np.zeros_like"] = zl
    dR = Obj("dR", lambda k: None)
    P.call("HR", [dR, vec(m, "R"), amps("T"), ints("H"), False, None])
    return P, dR
def main(out):
    P, dR = sigma_x("sft")
    t = HEAD % ("sfx", "Specification vocabulary: the spin-flip (2,3) sigma vector of\n    " + ", ".join(METHODS["sft"]["files"]) + " with eleven terms changed.  Left out of sfeomcc23_intermediates.py (lines 18, 31, 44, 58, 72, 85):\n      "
        + "\n      ".join(DROP) .replace(", optimize=True", "") + "\n    added after line 23, 50, 63, 77:\n      " + "\n      ".join(y for _, y in ADD).replace(", optimize=True", "") + "\n    and the coefficient 2/12 in sfeomcc23.py line 148 replaced by 3/12.  The other definitions are those of Sector3Model.v under other names")
    t = t.replace("sector3", "sfx")
    t += "From Verif Require Import Sector3Model.\n" + P.text() + "\n(** the vector returned *)\n" + result("sft", "sfx_HR", P, dR) + "\n"
    open(out + "SpinFlip3Fixed.v", "w").write(t)
    R, sub = numbering()
    bl = METHODS["sft"]["blocks"]
    S = Reify(); S.alias = R.alias; S.ids = dict(R.ids); S.tens = list(R.tens); S.width = dict(R.width); S.known = dict(R.known)
    for k, (b, x) in enumerate(bl.items()): assert S.tid(f"sft_{b} R", len(x[0])) == 66 + k
    S.add(P, subst=sub)
    assert len(S.tens) == 66 + len(bl), S.tens[66:]
    t = "(** Generated by tools/gen_sfx.py: the sigma vector of SpinFlip3Fixed.v reified; arrays 0-65 as in CcsdReify.v (proof support). *)\n" + gen_sector3.RHEAD % "CcsdReify Sector3Model SpinFlip3Fixed" + "\n".join(S.out) + "\n"
    for b in bl: t += f"Definition s_sfx_{b} := r_{dR._d[b].name.split(' ')[0]}.\n"
    open(out + "SectorSfxReify.v", "w").write(t)
    t = gen_sec3fock.gen("sft").replace("s_sft_", "s_sfx_").replace("sft_HR", "sfx_HR").replace("SectorSftReify", "SpinFlip3Fixed SectorSfxReify").replace("gen_sec3fock.py", "gen_sfx.py")
    open(out + "SectorSfxFock.v", "w").write(t)
    gen_sector3.sigma = sigma_x
    sys.argv = ["gen_skel3.py", "/tmp", "sft"]
    src = open("/verif/tools/gen_skel3.py").read().replace("from gen_sector3 import *", "from gen_sector3 import *\nfrom gen_sector3 import sigma")
    exec(compile(src, "gen_skel3.py", "exec"), {})
    t = open("/tmp/Sector3Skel.v").read()
    i = t.index("Lemma skel "); j = t.index("Ltac rng6")
    t = (t[:i] + t[j:]).replace("sft_HR", "sfx_HR").replace("sft_same_", "sfx_same_").replace("sft_root_same", "sfx_root_same").replace("Sector3Spec.", "Sector3Spec Sector3Skel SpinFlip3Fixed.").replace("gen_skel3.py: the sigma vectors of Sector3Model.v as expressions", "gen_sfx.py: the sigma vector of SpinFlip3Fixed.v as expressions").replace("S_sft", "S_sfx").replace("they read", "it reads")
    open(out + "SectorSfxSkel.v", "w").write(t)
if __name__ == "__main__": main(sys.argv[1])
