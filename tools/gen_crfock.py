"""Generate CrccFock.v: components of (X1 + X2 + X3) exp(T2) |ref> for arbitrary antisymmetric X; with X the CCSDT residual they are those of (H - E) (1 + T3) exp(T2) |ref>."""
import sys, re
src = open("/verif/rocq/theories/SdtFock.v").read()
BL = ["a", "b", "aa", "ab", "bb", "aaa", "aab", "abb", "bbb"]
V, O = {"a": 1, "b": 3}, {"a": 0, "b": 2}
W = {"a": 1, "b": 1, "aa": 4, "ab": 1, "bb": 4, "aaa": 36, "aab": 4, "abb": 4, "bbb": 36}
def rterm(k, b):
    n = len(b)
    v, o = list(range(40, 40 + n)), list(range(40 + n, 40 + 2 * n))
    l = [(x, V[s]) for x, s in zip(v, b)] + [(x, O[s]) for x, s in zip(o, b)]
    ops = [f"C {V[s]} {x}" for x, s in zip(v, b)] + [f"A {O[s]} {x}" for x, s in reversed(list(zip(o, b)))]
    return f"mkTerm {'1' if W[b] == 1 else f'(1 # {W[b]})'} [{'; '.join(f'({x}, {c})' for x, c in l)}] [({66 + k}, [{'; '.join(str(x) for x, _ in l)}])] [{'; '.join(ops)}]"
own = []
names = []
for k, b in enumerate(BL):
    n = len(b)
    for off in (n, 0):
        for p in range(n - 1):
            if b[p] == b[p + 1]:
                q = list(range(2 * n)); q[off + p], q[off + p + 1] = q[off + p + 1], q[off + p]
                own.append((66 + k, q, n))
t = """(** Generated by tools/gen_crfock.py: components of (X1 + X2 + X3) exp(T2) |ref> for antisymmetric X (proof support). *)
From Coq Require Import Reals Arith NArith List Bool Lia Lra QArith Qreals ZArith FunctionalExtensionality.
From Verif Require Import RSum IntegralsModel TensorObjs TensorAlg TensorSpec CcsdModel CcsdUpdate CcsdReify CcsdProps FockSpec FockCar FockWick FockArrays FockCcSpec FockTerms FockHam FockExp FockLevel FockCheck FockState FockNear FockProj FockSector FockSectorTools
  FockFast FockSectorSpec FockFlip RankSpec FockDress FockShift FockSector3 FockTools3 CcsdtModel CcsdtUpdate CcsdtReify SdtSpec SdtFlat SdtFock.
Import ListNotations.
Local Open Scope nat_scope.
"""
t += "Definition cx_rts : list term := [" + ";\n  ".join(rterm(k, b) for k, b in enumerate(BL)) + "].\n"
t += "Definition cx_own : list (nat * (nat * list nat * bool)) := [" + "; ".join(f"({k}, ({k}, [{'; '.join(map(str, q))}], false))" for k, q, n in own) + "].\n"
t += """Definition cx_gens := fock_gens ++ cx_own.
Definition cx_tab := Eval vm_compute in symtab cx_gens 75.
Lemma cx_htab : cx_tab = symtab cx_gens 75. Proof. vm_compute. reflexivity. Qed.
Lemma cx_rtok : rtok cx_rts 1 = true. Proof. vm_compute. reflexivity. Qed.
"""
ALL = ["ref"] + BL
for b in ALL:
    m = re.search(rf"Definition sdt_d_{b} := EAdd \(EMul f_en sdt_c_{b}\) (.*)\.\n", src)
    e = re.sub(r"e_sdt_(\w+) ([\d ]*\d)", lambda g: f"ET {66 + BL.index(g.group(1))} [{'; '.join(g.group(2).split())}]", m.group(1))
    t += f"Definition cx_c_{b} : ex := {e}.\nLemma cx_k_{b} : fock_fast cx_tab sdt_ext_{b} (eek2 sdt_bra_{b} cx_rts) cx_c_{b} = true. Proof. vm_compute. reflexivity. Qed.\n"
t += """Local Open Scope R_scope.
Section P.
Variables (d : dims) (I : integrals) (T0 X : amps) (n m : nat).
Hypothesis En : (noa d + nua d = n)%nat.
Hypothesis En' : (nob d + nub d = n)%nat.
Hypothesis HI : exchangeable I.
Hypothesis HT : antisym_amps T0.
Hypothesis HX : antisym_amps X.
Hypothesis HX3 : triples_anti X.
Hypothesis Hm : (2 <= m)%nat.
Notation T := (bare T0).
Notation H := (fock_ints (noa d) (nob d) I).
Notation ref := (reference (noa d) (nob d)).
Notation psi := (expo (cluster_sd d T) m (pure ref)).
Notation XS := [ap2 (x_a X); ap2 (x_b X); ap4 (x_aa X); ap4 (x_ab X); ap4 (x_bb X); ap6 (x_aaa X); ap6 (x_aab X); ap6 (x_abb X); ap6 (x_bbb X)].
Notation ten := (tenv (fock_arrays H T ++ XS)).
Notation dn e v := (den (fdim d) ten e v).
Lemma cx_op_ok v phi : psem (noa d) (nob d) (fdim d) ten cx_rts v phi = cluster_sdt d X phi.
Proof.
  apply ext_state; intros D. unfold psem, cx_rts, cluster_sdt, cluster_sd, triples, single_op, double_op. cbn [lsum]. unfold tsem. cbn [t_c t_l t_f t_o].
  rewrite !half36, !fourth, Q1, Rplus_0_r. rewrite !Rmult_1_l, !Rplus_assoc.
  repeat match goal with |- _ + _ = _ + _ => apply f_equal2 | |- / _ * _ = / _ * _ => apply f_equal end; cbn [ssum]; repeat (apply sumn_ext; intros ? _); cbn [prodf]; rewrite Rmult_1_r; reflexivity.
Qed.
Lemma cx_syms : Forall (fun g => okalt ten (fst g) (snd g)) cx_gens.
Proof.
  apply sector_syms; [exact (fock_ints_antisym _ _ _ HI)|exact (bare_anti _ HT)|]. destruct HX3 as (A0 & A1 & A2 & A3 & A4 & A5 & A6 & A7 & A8 & A9 & A10 & A11). destruct HX as [Z0 Z1 Z2 Z3].
  SYMS apply Forall_nil.
Qed.
"""
a6 = iter(range(12)); z4 = iter(["Z1", "Z0", "Z3", "Z2"])
sy = ""
for k, q, n in own:
    if n == 2: sy += f"apply Forall_cons; [okswap {next(z4)}|]. "
    else: sy += f"apply Forall_cons; [okswap6 A{next(a6)}|]. "
t = t.replace("SYMS ", sy)
for b in ALL:
    m = re.search(rf"Lemma sdt_comp_{b}( [a-k ]+)? : (.*?)str (\[.*?\]) sdt_defect ref = (.*)\.\n", src)
    vs = (m.group(1) or "").strip(); hyp = m.group(2); rhs = m.group(4)
    hy = re.findall(r"\((\w) <", hyp)
    ve = f"(venv [{'; '.join(vs.split())}])"
    t += f"Lemma cx_comp_{b} {vs} : {hyp}str {m.group(3)} (cluster_sdt d X psi) ref = {rhs}.\nProof.\n  " + (f"intros {' '.join('H' + x for x in hy)}.\n  " if hy else "")
    t += f"change (opsem (noa d) (nob d) sdt_bra_{b} {ve} (cluster_sdt d X psi) ref = {rhs}). rewrite <- (cx_op_ok {ve}).\n"
    t += f"  rewrite <- (eek2_ok d I T0 n XS cx_rts 1 En En' cx_rtok sdt_ext_{b} sdt_bra_{b} {ve} m); [|extv|exact sdt_bk_{b}|cbn; lia|exact Hm].\n"
    t += f"  rewrite (fock_fast_sound (noa d) (nob d) (fdim d) ten cx_gens 75 cx_tab sdt_ext_{b} _ cx_c_{b} {ve}); [|reflexivity|reflexivity|exact cx_htab|exact cx_syms|extv|exact cx_k_{b}].\n"
    t += ("  change (dn (EC 0 1) (venv []) = 0). apply den_zero.\n" if b == "ref" else "  reflexivity.\n") + "Qed.\n"
t += "End P.\n"
open((sys.argv[1] if len(sys.argv) > 1 else "/verif/rocq/theories/") + "CrccFock.v", "w").write(t)
