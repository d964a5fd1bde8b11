"""Generate CcsdtUpdate.v (the triples update loops of cc_loops2.f90 and one CCSDT iteration), SdtSpec.v, SdtFlat.v and SdtFock.v (components of
(H - E) (1 + T3) exp(T2) |ref>)."""
import re, sys
sys.path.insert(0, "/verif/tools")
from wickgen import *
from gen_sec3fock import ORB, names, strv, bounds, conj, lists
from gen_sector3 import DIM
CLS = {"o": 0, "v": 1, "O": 2, "V": 3}
BLK = {"a": ("vo", "0 ~1"), "b": ("VO", "0 ~1"), "aa": ("vvoo", "0 1 ~3 ~2"), "ab": ("vVoO", "0 1 ~3 ~2"), "bb": ("VVOO", "0 1 ~3 ~2"),
  "aaa": ("vvvooo", "0 1 2 ~5 ~4 ~3"), "aab": ("vvVooO", "0 1 2 ~5 ~4 ~3"), "abb": ("vVVoOO", "0 1 2 ~5 ~4 ~3"), "bbb": ("VVVOOO", "0 1 2 ~5 ~4 ~3")}
NUM = {"a": 0, "b": 1, "aa": 2, "ab": 3, "bb": 4, "aaa": 5, "aab": 6, "abb": 7, "bbb": 8}
T3 = ["aaa", "aab", "abb", "bbb"]
F90 = "/repo/ccpy/lib/fortran/cc_loops2.f90"
def swaps(cls):
    out = []
    for g in groups(cls):
        for p, q in zip(g, g[1:]):
            l = list(range(len(cls))); l[p], l[q] = l[q], l[p]; out.append(l)
    return out
def show(o): return "[" + "; ".join(f"{'C' if d else 'A'} {CLS[c]} {x}" for d, c, x in o) + "]"
def sub(name):
    """body of a subroutine, with line numbers"""
    L = open(F90).read().split("\n")
    i = next(k for k, l in enumerate(L) if re.match(rf"\s*subroutine {name}\(", l)); j = next(k for k in range(i, len(L)) if f"end subroutine {name}" in L[k])
    return i + 1, j + 1, "\n".join(L[i:j]).replace("&\n", " ")
def tri(s): return [x.strip().lower() for x in s.split(",")]
def loop(name, arr, X):
    i, j, t = sub(name)
    own = re.search(rf"{arr}\(([^)]*)\) = {arr}\(\1\) \+ val", t).group(1)
    assert tri(own) == list("abcijk")
    vals = re.search(r"\bval = ([^/]*?)\n\s*\n?\s*val = val/", t, re.S).group(1)
    terms = [(m.group(1) != "-", tri(m.group(2))) for m in re.finditer(rf"([+-]?)\s*{X}\(([^)]*)\)", vals)]
    copies = [(m.group(2) != "-", tri(m.group(1))) for m in re.finditer(rf"{arr}\(([^)]*)\) = (-?){arr}\(", t) if tri(m.group(1)) != list("abcijk")]
    res = [(m.group(2) != "-", tri(m.group(1))) for m in re.finditer(r"resid\(([^)]*)\) = (-?)val", t)]
    assert all(tri(m.group(1)) == list("abcijk") for m in re.finditer(rf"= -?{arr}\(([^)]*)\)", t))
    maps = dict((a.lower(), b) for a, b in re.findall(r"\b([ABCIJKabcijk]) = (aa|bb|cc|ii|jj|kk);", t))
    dos = re.findall(r"do (\w\w) = (\S+),(\w+)", t)
    den = re.search(r"denom = (.*)", t).group(1).strip()
    return dict(lines=(i, j), terms=terms, copies=copies, res=res, maps=maps, dos=dos, den=den)
LOOPS = {"aaa": ("update_t3a_v2", "t3a", "X3A"), "aab": ("update_t3b_v2", "t3b", "X3B"), "abb": ("update_t3c_v2", "t3c", "X3C"), "bbb": ("update_t3d_v2", "t3d", "X3D")}
def terms(b): return loop(*LOOPS[b])["terms"]
def cellv(l): return "(" + ", ".join(l) + ")"
def clist(l): return "[" + "; ".join(f"({'true' if s else 'false'}, {cellv(p)})" for s, p in l) + "]"
def update():
    D = {b: loop(*LOOPS[b]) for b in T3}
    same = lambda k: D["aaa"][k] == D["bbb"][k]
    assert same("terms") and same("copies") and same("res") and same("maps") and [(a, b) for a, b, c in D["aaa"]["dos"]] == [(a, b) for a, b, c in D["bbb"]["dos"]]
    assert D["aaa"]["den"].replace("fA", "fB") == D["bbb"]["den"]
    t = """(** Generated by tools/gen_sdt.py.  The update loops for the triples amplitudes, ccpy/lib/fortran/cc_loops2.f90, and one CCSDT iteration, ccpy/cc/ccsdt.py
    (update, lines 11-51, flag_RHF = False).  Indices count from 0; exact reals. *)
From Coq Require Import Reals Arith List Bool.
From Verif Require Import RSum IntegralsModel TensorObjs LoopModel CcsdModel CcsdUpdate CcsdtModel.
Import ListNotations.
Open Scope R_scope.
Definition cell : Type := (nat * nat * nat * nat * nat * nat)%type.
Definition at6 (f : mat6) (q : cell) : R := let '(a, b, c, i, j, k) := q in f a b c i j k.
Definition eq6 (p q : cell) : bool :=
  let '(a, b, c, i, j, k) := p in let '(a', b', c', i', j', k') := q in ((a =? a') && (b =? b') && (c =? c') && (i =? i') && (j =? j') && (k =? k'))%nat.
(** an array after one element is overwritten *)
Definition wr6 (f : mat6) (q : cell) (x : R) : mat6 := fun a b c i j k => if eq6 (a, b, c, i, j, k) q then x else f a b c i j k.
Definition signed (s : bool) (x : R) : R := if s then x else - x.
(** The statements of one pass through the innermost loop: the element [own] is incremented, other elements become plus or minus it, in the order of the
    program; the array resid receives plus or minus the increment *)
Definition pass6 (own : cell) (val : R) (copies res : list (bool * cell)) (st : mat6 * mat6) : mat6 * mat6 :=
  let '(t, resid) := st in
  (fold_left (fun u '(s, q) => wr6 u q (signed s (at6 u own))) copies (wr6 t own (at6 t own + val)),
   fold_left (fun u '(s, q) => wr6 u q (signed s val)) res resid).
"""
    for b in ("aaa", "aab", "abb"):
        d = D[b]; nm, arr, X = LOOPS[b]
        i, j = d["lines"]
        extra = f"; update_t3d_v2, lines {D['bbb']['lines'][0]}-{D['bbb']['lines'][1]}, is the same with the beta arrays" if b == "aaa" else ""
        s = {"aaa": "", "aab": "b", "abb": "c"}[b]
        t += f"\n(** cc_loops2.f90, {nm}, lines {i}-{j}{extra} *)\n"
        e = "".join((" + " if sg else " - ") + "X " + " ".join(p) if k else "X " + " ".join(p) for k, (sg, p) in enumerate(d["terms"]))
        assert d["terms"][0][0]
        t += f"Definition comb3{s} (X : mat6) : mat6 := fun a b c i j k =>\n  {e}.\n"
        t += f"Definition copies3{s} (a b c i j k : nat) : list (bool * cell) :=\n  {clist(d['copies'])}.\nDefinition resid3{s} (a b c i j k : nat) : list (bool * cell) :=\n  {clist(d['res'])}.\n"
        P = "fo fv" if b == "aaa" else "foa fva fob fvb"
        den = re.sub(r"f([AB])_(oo|vv)\((\w),\w\)", lambda m: f"f{m.group(2)[0]}{'' if b == 'aaa' else m.group(1).lower()} {m.group(3).lower()} {m.group(3).lower()}", d["den"])
        den = re.sub(r"([+-])", r" \1 ", den)
        dims = {"noa": "na", "nob": "nb", "nua": "ma", "nub": "mb"} if b != "aaa" else {"noa": "no", "nua": "nu"}
        dp = "na nb ma mb" if b != "aaa" else "no nu"
        body = None
        for v, lo, hi in reversed(d["dos"]):
            hi = dims[hi]
            rng = f"(seq 0 {hi})" if lo == "1" else f"(seq (S {lo.split('+')[0]}) ({hi} - S {lo.split('+')[0]}))"
            body = f"map (fun {v} => (ii, jj, kk, aa, bb, cc)) {rng}" if body is None else f"flat_map (fun {v} => {body}) {rng}"
        t += f"Definition loop3{s} ({dp} : nat) : list cell := {body}.\n"
        t += f"Definition den3{s} ({P} : mat2) (shift : R) (a b c i j k : nat) : R := {den} - shift.\n"
        lets = " ".join(f"let {x} := {d['maps'][x]} in" for x in "abcijk")
        t += f"Definition upd_t3{s}_body (X : mat6) ({P} : mat2) (shift : R) (st : mat6 * mat6) (q : cell) : mat6 * mat6 :=\n  let '(ii, jj, kk, aa, bb, cc) := q in {lets}\n"
        t += f"  pass6 (a, b, c, i, j, k) (comb3{s} X a b c i j k / den3{s} {P} shift a b c i j k) (copies3{s} a b c i j k) (resid3{s} a b c i j k) st.\n"
        t += f"Definition upd_t3{s} ({dp} : nat) (t X : mat6) ({P} : mat2) (shift : R) : mat6 * mat6 :=\n  fold_left (upd_t3{s}_body X {P} shift) (loop3{s} {dp}) (t, fun _ _ _ _ _ _ => 0).\n"
    t += """
Definition set_aaa (T : amps) (f : mat6) : amps := mkAmps (x_a T) (x_b T) (x_aa T) (x_ab T) (x_bb T) f (x_aab T) (x_abb T) (x_bbb T).
Definition set_aab (T : amps) (f : mat6) : amps := mkAmps (x_a T) (x_b T) (x_aa T) (x_ab T) (x_bb T) (x_aaa T) f (x_abb T) (x_bbb T).
Definition set_abb (T : amps) (f : mat6) : amps := mkAmps (x_a T) (x_b T) (x_aa T) (x_ab T) (x_bb T) (x_aaa T) (x_aab T) f (x_bbb T).
Definition set_bbb (T : amps) (f : mat6) : amps := mkAmps (x_a T) (x_b T) (x_aa T) (x_ab T) (x_bb T) (x_aaa T) (x_aab T) (x_abb T) f.
(** The calls of the loops in ccsdt.py.  T: the amplitudes at the start of the iteration (read by the intermediates), U: the object being updated *)
(** ccsdt.py, update_t1a, line 71 *)
Definition ccsdt_step_a (d : dims) (shift : R) (H : ints) (T U : amps) : amps :=
  set_a U (fst (upd_t1 (noa d) (nua d) (x_a U) (ccsdt_res_a d H T U) (i_a_oo H) (i_a_vv H) shift)).
(** ccsdt.py, update_t1b, line 98 *)
Definition ccsdt_step_b (d : dims) (shift : R) (H : ints) (T U : amps) : amps :=
  set_b U (fst (upd_t1 (nob d) (nub d) (x_b U) (ccsdt_res_b d H T U) (i_b_oo H) (i_b_vv H) shift)).
(** ccsdt.py, update_t2a, line 137 *)
Definition ccsdt_step_aa (d : dims) (shift : R) (H : ints) (T U : amps) : amps :=
  set_aa U (fst (upd_t2 (noa d) (nua d) (x_aa U) (ccsdt_res_aa d H T U) (i_a_oo H) (i_a_vv H) shift)).
(** ccsdt.py, update_t2b, line 189 *)
Definition ccsdt_step_ab (d : dims) (shift : R) (H : ints) (T U : amps) : amps :=
  set_ab U (fst (upd_t2b (noa d) (nob d) (nua d) (nub d) (x_ab U) (ccsdt_res_ab d H T U) (i_a_oo H) (i_a_vv H) (i_b_oo H) (i_b_vv H) shift)).
(** ccsdt.py, update_t2c, line 225 *)
Definition ccsdt_step_bb (d : dims) (shift : R) (H : ints) (T U : amps) : amps :=
  set_bb U (fst (upd_t2 (nob d) (nub d) (x_bb U) (ccsdt_res_bb d H T U) (i_b_oo H) (i_b_vv H) shift)).
(** ccsdt.py, update_t3a, line 253 *)
Definition ccsdt_step_aaa (d : dims) (shift : R) (H : ints) (T U : amps) : amps :=
  set_aaa U (fst (upd_t3 (noa d) (nua d) (x_aaa U) (ccsdt_res_aaa d H T U) (i_a_oo H) (i_a_vv H) shift)).
(** ccsdt.py, update_t3b, line 316 *)
Definition ccsdt_step_aab (d : dims) (shift : R) (H : ints) (T U : amps) : amps :=
  set_aab U (fst (upd_t3b (noa d) (nob d) (nua d) (nub d) (x_aab U) (ccsdt_res_aab d H T U) (i_a_oo H) (i_a_vv H) (i_b_oo H) (i_b_vv H) shift)).
(** ccsdt.py, update_t3c, line 381 *)
Definition ccsdt_step_abb (d : dims) (shift : R) (H : ints) (T U : amps) : amps :=
  set_abb U (fst (upd_t3c (noa d) (nob d) (nua d) (nub d) (x_abb U) (ccsdt_res_abb d H T U) (i_a_oo H) (i_a_vv H) (i_b_oo H) (i_b_vv H) shift)).
(** ccsdt.py, update_t3d, line 416 *)
Definition ccsdt_step_bbb (d : dims) (shift : R) (H : ints) (T U : amps) : amps :=
  set_bbb U (fst (upd_t3 (nob d) (nub d) (x_bbb U) (ccsdt_res_bbb d H T U) (i_b_oo H) (i_b_vv H) shift)).
(** ccsdt.py, update, lines 11-51.  The object T is updated block after block; later blocks read the updated ones. *)
Definition ccsdt_iter (d : dims) (shift : R) (H : ints) (T : amps) : amps :=
  let U1 := ccsdt_step_a d shift H T T in
  let U2 := ccsdt_step_b d shift H T U1 in
  let U3 := ccsdt_step_aa d shift H T U2 in
  let U4 := ccsdt_step_ab d shift H T U3 in
  let U5 := ccsdt_step_bb d shift H T U4 in
  let U6 := ccsdt_step_aaa d shift H T U5 in
  let U7 := ccsdt_step_aab d shift H T U6 in
  let U8 := ccsdt_step_abb d shift H T U7 in
  ccsdt_step_bbb d shift H T U8.

(** The residual of the amplitude equations: what the update divides by the energy denominators *)
Definition ccsdt_resid (d : dims) (H : ints) (T : amps) : amps :=
  mkAmps (ccsdt_res_a d H T T) (ccsdt_res_b d H T T) (four_term (ccsdt_res_aa d H T T)) (ccsdt_res_ab d H T T) (four_term (ccsdt_res_bb d H T T))
         (comb3 (ccsdt_res_aaa d H T T)) (comb3b (ccsdt_res_aab d H T T)) (comb3c (ccsdt_res_abb d H T T)) (comb3 (ccsdt_res_bbb d H T T)).
"""
    return t
def spec():
    t = """(** Specification vocabulary, generated by tools/gen_sdt.py: triple excitations in second quantisation, the determinants of CCSDT and antisymmetry of the
    triples amplitudes.  [oa i], [va d a] are the occupied and unoccupied alpha orbitals, [ob i], [vb d a] the beta ones. *)
From Coq Require Import Reals Arith NArith List.
From Verif Require Import RSum IntegralsModel TensorObjs FockSpec FockCcSpec FockSectorSpec RankSpec.
Local Open Scope R_scope.
"""
    tt = []
    for b in T3:
        cls, s = BLK[b]; nm = names(cls); w = weight(cls); e = "psi"
        for d, c, x in reversed(parse(s, cls)): e = f"{'cre' if d else 'ann'} ({ORB[c] % nm[x]}) " + (e if e == "psi" else f"({e})")
        tt.append(f"/ {w} * " + "".join(f"sumn ({DIM[c]} d) (fun {x} => " for x, c in zip(nm, cls)) + f"x_{b} T {' '.join(nm)} * {e} D" + ")" * 6)
    t += "Definition triples (d : dims) (T : amps) (psi : state) : state := fun D =>\n  " + "\n  + ".join(tt) + ".\n"
    t += """(** T1 + T2 + T3 *)
Definition cluster_sdt (d : dims) (T : amps) (psi : state) : state := fun D => cluster_sd d T psi D + triples d T psi D.
"""
    an = []
    for b in T3:
        cls = BLK[b][0]; nm = names(cls)
        for p in swaps(cls): an.append(f"(forall {' '.join(nm)}, x_{b} T {' '.join(nm)} = - x_{b} T {' '.join(nm[i] for i in p)})")
    t += "Definition triples_anti (T : amps) : Prop :=\n  " + conj(an) + ".\n"
    t += """(** The reference and all determinants with up to three of its electrons excited *)
Definition sdt_space (d : dims) (n : nat) : N -> Prop := sector d n 0 0 0 0 3.
(** Amplitudes equal on the index ranges, all blocks *)
Definition same_amps3 (d : dims) (X Y : amps) : Prop :=
  """ + conj(f"(forall {' '.join(names(c))}, {bounds(c, names(c))} -> x_{b} X {' '.join(names(c))} = x_{b} Y {' '.join(names(c))})" for b, (c, s) in BLK.items()) + ".\n"
    return t
ALL = dict([("ref", ("", ""))] + list(BLK.items()))
def bnd(c, imp=True):
    b = bounds(c, names(c)).replace("%nat", "")
    return f"forall {' '.join(names(c))}, {b} -> " if c else ""
def flat():
    nb = len(ALL)
    t = """(** Generated by tools/gen_sdt.py: the determinants of CCSDT as strings on the reference (proof support). *)
From Coq Require Import Reals Arith NArith List Bool Lia.
From Verif Require Import RSum IntegralsModel TensorObjs FockSpec FockCar FockCcSpec FockSectorSpec RankSpec SdtSpec FockFlip FockCount.
Import ListNotations.
Local Open Scope nat_scope.
Section F.
Variables (d : dims) (n : nat) (W : state).
Hypothesis En : noa d + nua d = n.
Hypothesis En' : nob d + nub d = n.
Notation ref := (reference (noa d) (nob d)).
"""
    t += "Lemma sdt_flat : (forall D, sdt_space d n D -> W D = 0%R) <-> (\n  " + conj(f"({bnd(c)}str {strv(adjoint(s, c), names(c)) if c else '[]'} W ref = 0%R)" for b, (c, s) in ALL.items()) + ").\n"
    t += "Proof.\n  unfold sdt_space. rewrite (sector_flat d n En En'). split.\n"
    t += "  - intros H. " + "split; [|" * (nb - 1) + "]" * (nb - 1) + "; intros.\n"
    for b, (c, s) in ALL.items(): t += "    + down H " + " ".join(lists(c, names(c))) + ".\n"
    t += "  - intros (" + " & ".join(f"F{k}" for k in range(nb)) + ") Ha Pa Hb Pb HW C1 C2 C3. assert (HW' := HW). destruct HW' as ((_ & A1) & (_ & A2) & (_ & A3) & (_ & A4)).\n"
    pat = lambda p, k: "[|" + f"{p}0 " + "".join(f"[|{p}{i} " for i in range(1, k)) + "[|? ?]" + "]" * k
    t += f"    destruct Ha as {pat('i', 3)}; destruct Hb as {pat('j', 3)}; cbn [length] in C1, C2, C3; try (exfalso; lia);\n"
    t += f"      destruct Pa as {pat('a', 3)}; cbn [length] in C1; try (exfalso; lia); destruct Pb as {pat('b', 3)}; cbn [length] in C2; try (exfalso; lia); cbn [In] in *;\n      lazymatch goal with\n"
    for k, (b, (c, s)) in enumerate(ALL.items()):
        nm = names(c)
        l = [x if "nil" in x else "[" + "; ".join("?" + y for y in x[1:-1].split("; ")) + "]" for x in lists(c, nm)]
        rng = {"o": "A1", "v": "A2", "O": "A3", "V": "A4"}
        t += f"      | |- context [lst _ {' '.join(l)}] => ups " + (f"(F{k} {' '.join(nm)} " + " ".join(f"ltac:(apply {rng[x]}; tauto)" for x in c) + ")" if c else f"F{k}") + "\n"
    return t + "      end.\nQed.\nEnd F.\n"
HEAD = """(** Generated by tools/gen_sdt.py: components of (H - E) (1 + T3) exp(T2) |ref> (proof support). *)
From Coq Require Import Reals Arith NArith List Bool Lia Lra QArith Qreals ZArith FunctionalExtensionality.
From Verif Require Import RSum IntegralsModel TensorObjs TensorAlg TensorSpec CcsdModel CcsdUpdate CcsdReify CcsdProps FockSpec FockCar FockWick FockArrays FockCcSpec FockTerms FockHam FockExp FockLevel FockCheck FockState FockNear FockProj FockSector FockSectorTools
  FockFast FockSectorSpec FockFlip RankSpec FockDress FockShift FockSector3 FockTools3 CcsdtModel CcsdtUpdate CcsdtReify SdtSpec SdtFlat.
Import ListNotations.
Local Open Scope nat_scope.
"""
def resid(b, ix):
    if b in ("a", "b", "ab"): return f"(r_ccsdt_res_{b} 10 {' '.join(map(str, ix))})"
    tm = terms(b) if len(b) == 3 else [(True, "abij"), (False, "baij"), (False, "abji"), (True, "baji")]
    nm = "abcijk" if len(b) == 3 else "abij"
    e = None
    for s, p in tm:
        x = f"(r_ccsdt_res_{b} 10 {' '.join(str(ix[nm.index(i)]) for i in p)})"
        e = x if e is None else f"({'EAdd' if s else 'ESub'} {e} {x})"
    return e
def gen():
    t = HEAD
    ts, g = ["mkTerm 1 [] [] []"], []
    for b in T3:
        cls, s = BLK[b]; k = NUM[b]
        o = [(d, c, 40 + x) for d, c, x in parse(s, cls)]
        ts.append(f"mkTerm (1 # {weight(cls)}) [{'; '.join(f'({40 + i}, {CLS[c]})' for i, c in enumerate(cls))}] [({k}, [{'; '.join(str(40 + i) for i in range(6))}])] {show(o)}")
        for p in swaps(cls): g.append(f"({k}, ({k}, [{'; '.join(map(str, p))}], false))")
    t += f"Definition sdt_rts : list term := [{'; '.join(ts)}].\nDefinition sdt_own : list (nat * (nat * list nat * bool)) := [{'; '.join(g)}].\nDefinition sdt_gens := fock_gens ++ sdt_own.\n"
    t += "Definition sdt_tab := Eval vm_compute in symtab sdt_gens 66.\nLemma sdt_htab : sdt_tab = symtab sdt_gens 66. Proof. vm_compute. reflexivity. Qed.\nLemma sdt_rtok : rtok sdt_rts 0 = true. Proof. vm_compute. reflexivity. Qed.\n"
    for b in BLK:
        n = len(BLK[b][0]); v = " ".join(f"p{i}" for i in range(n))
        t += f"Definition e_sdt_{b} ({v} : nat) : ex := {resid(b, ['p%d' % i for i in range(n)])}.\n"
    def el(nm, ix):
        h, b = nm.split("_", 1)
        return f"(ET {NUM[b]} [{'; '.join(map(str, ix))}])" if h == "t" else f"(e_sdt_{b} {' '.join(map(str, ix))})"
    def ex(d, at=el, mul="(EMul %s %s)", add="(EAdd %s %s)", sc=None, zero="(EC 0 1)", one="(EC 1 1)"):
        out = None
        for k, q in d.items():
            e = None
            for nm, ix in k: e = at(nm, ix) if e is None else mul % (e, at(nm, ix))
            if e is None: e = one
            assert q in (1, -1)
            if q == -1: e = ("(EOpp %s)" if sc is None else "(- %s)") % e
            out = e if out is None else add % (out, e)
        return out or zero
    data = {}
    for b, (cls, s) in ALL.items():
        bra = adjoint(s, cls) if cls else []
        c = expand(bra, [[]] + [[("t_" + x,) + BLK[x]] for x in T3])
        r = expand(bra, [[("r_" + x,) + BLK[x]] for x in BLK])
        data[b] = (bra, c, r)
        t += f"Definition sdt_bra_{b} : list op := {show(bra)}.\nDefinition sdt_ext_{b} : list (nat * nat) := [{'; '.join(f'({i}, {CLS[x]})' for i, x in enumerate(cls))}].\n"
        t += f"Definition sdt_c_{b} := {ex(c)}.\nDefinition sdt_d_{b} := EAdd (EMul f_en sdt_c_{b}) {ex(r)}.\n"
        t += f"Lemma sdt_bk_{b} : braok sdt_ext_{b} sdt_bra_{b} = true. Proof. vm_compute. reflexivity. Qed.\n"
        t += f"Lemma sdt_kc_{b} : fock_fast sdt_tab sdt_ext_{b} (eek2 sdt_bra_{b} sdt_rts) sdt_c_{b} = true. Proof. vm_compute. reflexivity. Qed.\n"
        t += f"Lemma sdt_kd_{b} : fock_fast sdt_tab sdt_ext_{b} (hek2 sdt_bra_{b} sdt_rts) (kill sdt_d_{b}) = true. Proof. vm_compute. reflexivity. Qed.\n"
    t += f"""Local Open Scope R_scope.
Lemma half36 : Q2R (1 # 36) = / 36. Proof. unfold Q2R. cbn [Qnum Qden]. lra. Qed.
Section P.
Variables (d : dims) (I : integrals) (T0 : amps) (n m : nat).
Hypothesis En : (noa d + nua d = n)%nat.
Hypothesis En' : (nob d + nub d = n)%nat.
Hypothesis HI : exchangeable I.
Hypothesis HT : antisym_amps T0.
Hypothesis HY : triples_anti T0.
Hypothesis Hm : (2 <= m)%nat.
Notation T := (bare T0).
Notation H := (fock_ints (noa d) (nob d) I).
Notation ref := (reference (noa d) (nob d)).
Notation psi := (expo (cluster_sd d T) m (pure ref)).
Notation E := (scf_energy (noa d) (nob d) I + cc_energy d H T).
Notation ten := (tenv (fock_arrays H T ++ [])).
Notation dn e v := (den (fdim d) ten e v).
Notation X := (ccsdt_resid d H T).
Definition with3 (A : amps) (phi : state) : state := fun D => phi D + triples d A phi D.
Definition sdt_defect : state := fun D => hamiltonian n I (with3 T0 psi) D - E * with3 T0 psi D.
Lemma sdt_op_ok v phi : psem (noa d) (nob d) (fdim d) ten sdt_rts v phi = with3 T0 phi.
Proof.
  apply ext_state; intros D. unfold psem, sdt_rts, with3, triples. cbn [lsum]. unfold tsem. cbn [t_c t_l t_f t_o].
  rewrite !half36, !fourth, Q1, Rplus_0_r. cbn [ssum prodf opsem fold_right]. rewrite !Rmult_1_l, !Rplus_assoc.
  repeat match goal with |- _ + _ = _ + _ => apply f_equal2 | |- / _ * _ = / _ * _ => apply f_equal end; [reflexivity|..]; repeat (apply sumn_ext; intros ? _); cbn [prodf]; rewrite Rmult_1_r; reflexivity.
Qed.
Lemma sdt_syms : Forall (fun g => okalt ten (fst g) (snd g)) sdt_gens.
Proof.
  apply sector_syms; [exact (fock_ints_antisym _ _ _ HI)|exact (bare_anti _ HT)|]. destruct HY as ({' & '.join(f'A{k}' for k in range(len(g)))}).
  {' '.join(f'apply Forall_cons; [okswap6 A{k}|].' for k in range(len(g)))} apply Forall_nil.
Qed.
"""
    for b, (cls, s) in ALL.items():
        bra, c, r = data[b]
        nm = names(cls); v = f"(venv [{'; '.join(nm)}])"
        A = lambda ix: " ".join(nm[i] for i in ix)
        at = lambda k, ix: f"x_{k.split('_')[1]} {'T' if k[0] == 't' else 'X'} {A(ix)}"
        R = lambda d_: ex(d_, at, "(%s * %s)", "(%s + %s)", 1, "0", "1")
        t += f"Lemma sdt_comp_{b} {' '.join(nm)} : {bounds(cls, nm) + ' -> ' if cls else ''}str {strv(bra, nm)} sdt_defect ref = {R(r)}.\nProof.\n  intros {' '.join('H' + x for x in nm)}.\n" if cls else f"Lemma sdt_comp_{b} : str [] sdt_defect ref = 0.\nProof.\n"
        t += f"  change (opsem (noa d) (nob d) sdt_bra_{b} {v} sdt_defect ref = {R(r)}). unfold sdt_defect. rewrite <- (sdt_op_ok {v}).\n"
        t += f"  rewrite (defect2_ok d I T0 n [] sdt_rts 0 En En' sdt_rtok sdt_own sdt_syms sdt_tab sdt_htab sdt_ext_{b} sdt_bra_{b} {v} m sdt_d_{b} sdt_c_{b} E);\n"
        t += f"    [|extv|exact sdt_bk_{b}|cbn; lia|exact Hm|exact sdt_kd_{b}|exact sdt_kc_{b}].\n"
        if r: t += f"  change (dn sdt_d_{b} {v}) with (dn f_en {v} * dn sdt_c_{b} {v} + {R(r)}). rewrite sector_en. ring.\nQed.\n"
        else: t += f"  change (dn sdt_d_{b} {v}) with (dn f_en {v} * dn sdt_c_{b} {v} + dn (EC 0 1) {v}). rewrite sector_en, den_zero. ring.\nQed.\n"
    t += "Lemma sdt_solves : solves_on (sdt_space d n) n I E (with3 T0 psi) <-> same_amps3 d X zero_amps.\nProof.\n"
    t += "  assert (F := sdt_flat d n sdt_defect En En').\n"
    t += "  transitivity (forall D, sdt_space d n D -> sdt_defect D = 0); [unfold solves_on, sdt_defect; split; intros G D HD; specialize (G D HD); [rewrite G; ring|lra]|]. rewrite F. clear F. unfold same_amps3. cbn [zero_amps x_a x_b x_aa x_ab x_bb x_aaa x_aab x_abb x_bbb]. split.\n"
    hn = lambda cls: " ".join(names(cls)) + " " + " ".join("H" + x for x in names(cls))
    nb = len(BLK)
    idx = {b: k + 1 for k, b in enumerate(BLK)}
    used = lambda b: [idx[x] for x in BLK if x != b and any(y[0] == "r_" + x for key in data[b][2] for y in key)]
    t += "  - intros (" + " & ".join(f"F{k}" for k in range(nb + 1)) + ").\n"
    for b, (c, s) in BLK.items():
        k = idx[b]; nm = names(c)
        t += f"    assert (L{k} : forall {' '.join(nm)}, {bounds(c, nm)} -> x_{b} X {' '.join(nm)} = 0).\n"
        t += f"    {{ intros {hn(c)}. specialize (F{k} {hn(c)}). rewrite sdt_comp_{b}" + "".join(f", !L{j}" for j in used(b)) + f" in F{k} by assumption. rewrite <- F{k}. ring. }}\n"
    t += "    " + "split; [|" * (nb - 1) + "]" * (nb - 1) + "; intros; auto.\n"
    t += "  - intros (" + " & ".join(f"L{k}" for k in range(1, nb + 1)) + ").\n    " + "split; [|" * nb + "]" * nb + ".\n    + apply sdt_comp_ref.\n"
    for b, (c, s) in BLK.items():
        t += f"    + intros {hn(c)}. rewrite sdt_comp_{b}" + "".join(f", !L{j}" for j in used(b) + [idx[b]]) + " by assumption. ring.\n"
    t += "Qed.\nEnd P.\n"
    return t
if __name__ == "__main__":
    out = sys.argv[1]
    for f, g in (("CcsdtUpdate", update), ("SdtSpec", spec), ("SdtFlat", flat), ("SdtFock", gen)): open(out + f + ".v", "w").write(g())
