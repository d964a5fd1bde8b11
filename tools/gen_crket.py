"""Generate CrccKet.v: exp(-T) H exp(T) between the reference, single triply excited determinants and the left state, against CrccModel.v."""
import sys
B3 = ["aaa", "aab", "abb", "bbb"]
BL = ["a", "b", "aa", "ab", "bb"]
VD, OD = {"a": "nua d", "b": "nub d"}, {"a": "noa d", "b": "nob d"}
W = {"aaa": 36, "aab": 4, "abb": 4, "bbb": 36}
V, O = "abc", "ijk"
def hyps(b): return " -> ".join([f"({V[x]} < {VD[s]})%nat" for x, s in enumerate(b)] + [f"({O[x]} < {OD[s]})%nat" for x, s in enumerate(b)])
def hn(b): return " ".join("H" + V[x] for x in range(len(b))) + " " + " ".join("H" + O[x] for x in range(len(b)))
def ix(b): return " ".join(V[:len(b)]) + " " + " ".join(O[:len(b)])
def vo(s, x): return f"(v{s} d {x})"
def oo(s, x): return f"(o{s} {x})"
def strl(b):
    n = len(b)
    return "[" + "; ".join([f"(true, o{b[x]} {O[x]})" for x in range(n)] + [f"(false, v{b[x]} d {V[x]})" for x in reversed(range(n))]) + "]"
def sos(b): return " ".join(vo(b[x], V[x]) for x in range(3)) + " " + " ".join(oo(b[x], O[x]) for x in range(3))
def swaps(b):
    r = []
    for off in (0, 3):
        for p in (0, 1):
            if b[p] == b[p + 1]:
                q = list(range(6)); q[off + p], q[off + p + 1] = q[off + p + 1], q[off + p]; r.append(q)
    return r
def lts(b): return [(p, q) for g in (V, O) for p, q in [(g[0], g[1]), (g[0], g[2]), (g[1], g[2])] if b[g.index(p)] == b[g.index(q)]]
def ydef(b, v, o):
    a = {"aaa": f"del3 a b c {v[0]} {v[1]} {v[2]} * del3 i j k {o[0]} {o[1]} {o[2]}",
         "aab": f"del2 a b {v[0]} {v[1]} * dlt {v[2]} c * (del2 i j {o[0]} {o[1]} * dlt {o[2]} k)",
         "abb": f"dlt {v[0]} a * del2 b c {v[1]} {v[2]} * (dlt {o[0]} i * del2 j k {o[1]} {o[2]})"}
    return a["aaa" if b == "bbb" else b]
t = """(** Generated by tools/gen_crket.py: exp(-T) H exp(T) between the reference, single triply excited determinants and the left CCSD state (proof support). *)
From Coq Require Import Reals Arith NArith List Bool Lia Lra FunctionalExtensionality.
From Verif Require Import RSum IntegralsModel TensorObjs TensorSpec IntsFix CcsdModel CcsdUpdate CcsdProps FockSpec FockCar FockArrays FockCcSpec FockHam FockExp FockLevel FockState FockSectorSpec FockFlip FockCount FockDress FockShift
  CcsdtModel CcsdtUpdate SdtSpec SdtFlat SdtFock SdtState CrccModel CrccSpec CrccFock CrccHbar CrccPoly CrccDiag.
Import ListNotations.
Local Open Scope R_scope.
(** * Sums against antisymmetrised deltas *)
Lemma del2_sum n a b (F : nat -> nat -> R) : (a < n)%nat -> (b < n)%nat -> (forall p q, F p q = - F q p) -> sumn n (fun p => sumn n (fun q => del2 a b p q * F p q)) = 2 * F a b.
Proof.
  intros Ha Hb HF. transitivity (F a b - F b a); [|rewrite (HF b a); ring]. rewrite <- (s2a n a b F Ha Hb). apply sumn_ext; intros p _. apply sumn_ext; intros q _. unfold del2. ring.
Qed.
Lemma s3 n a b c F : (a < n)%nat -> (b < n)%nat -> (c < n)%nat -> sumn n (fun p => sumn n (fun q => sumn n (fun r => dlt p a * dlt q b * dlt r c * F p q r))) = F a b c.
Proof.
  intros Ha Hb Hc. rewrite <- (s1 n a (fun p => F p b c) Ha). apply sumn_ext; intros p _. rewrite <- (s2 n n b c (F p) Hb Hc), (Rmult_comm (sumn _ _)), <- sumn_scal. apply sumn_ext; intros q _. rewrite <- sumn_scal. apply sumn_ext; intros r _. ring.
Qed.
Lemma del3_sum n a b c (F : nat -> nat -> nat -> R) : (a < n)%nat -> (b < n)%nat -> (c < n)%nat -> (forall p q r, F p q r = - F q p r) -> (forall p q r, F p q r = - F p r q) ->
  sumn n (fun p => sumn n (fun q => sumn n (fun r => del3 a b c p q r * F p q r))) = 6 * F a b c.
Proof.
  intros Ha Hb Hc F1 F2. transitivity (F a b c + F b c a + F c a b - F b a c - F a c b - F c b a).
  - rewrite <- (s3 n a b c F Ha Hb Hc), <- (s3 n b c a F Hb Hc Ha), <- (s3 n c a b F Hc Ha Hb), <- (s3 n b a c F Hb Ha Hc), <- (s3 n a c b F Ha Hc Hb), <- (s3 n c b a F Hc Hb Ha).
    rewrite <- !sumn_plus, <- !sumn_minus. apply sumn_ext; intros p _. rewrite <- !sumn_plus, <- !sumn_minus. apply sumn_ext; intros q _. rewrite <- !sumn_plus, <- !sumn_minus. apply sumn_ext; intros r _. unfold del3. ring.
  - rewrite (F2 b c a), (F1 b a c), (F1 c a b), (F2 a c b), (F1 c b a), (F2 b c a), (F1 b a c). ring.
Qed.
"""
# six-fold sums
for b in B3:
    if b == "bbb": continue
    no = {"aaa": ["n"] * 3, "aab": ["n", "n", "n'"], "abb": ["n", "n'", "n'"]}[b]
    mo = {"aaa": ["m"] * 3, "aab": ["m", "m", "m'"], "abb": ["m", "m'", "m'"]}[b]
    pv = "pqrstu"
    body = f"({ydef(b, 'pqr', 'stu')}) * F p q r s t u"
    for x in reversed(range(6)): body = f"sumn {(no + mo)[x]} (fun {pv[x]} => {body})"
    hs = [f"({l} < {z})%nat" for l, z in zip("abcijk", no + mo)]
    sy = [f"(forall p q r s t u, F p q r s t u = - F {' '.join(pv[x] for x in q)})" for q in swaps(b)]
    t += f"Lemma sum6_{b} {' '.join(sorted(set(no + mo)))} a b c i j k (F : mat6) : {' -> '.join(hs + sy)} ->\n  / {W[b]} * {body} = F a b c i j k.\nProof.\n"
    if b == "aaa":
        t += """  intros Ha Hb Hc Hi Hj Hk A1 A2 A3 A4.
  transitivity (/ 36 * (6 * (6 * F a b c i j k))); [apply f_equal|field].
  rewrite <- (del3_sum m i j k (fun s t u => F a b c s t u) Hi Hj Hk) by (intros; first [apply A3|apply A4]).
  rewrite <- (del3_sum n a b c (fun p q r => sumn m (fun s => sumn m (fun t => sumn m (fun u => del3 i j k s t u * F p q r s t u)))) Ha Hb Hc).
  - apply sumn_ext; intros p _. apply sumn_ext; intros q _. apply sumn_ext; intros r _. rewrite <- sumn_scal. apply sumn_ext; intros s _. rewrite <- sumn_scal. apply sumn_ext; intros t _. rewrite <- sumn_scal. apply sumn_ext; intros u _. ring.
  - intros p q r. rewrite <- sumn_opp. apply sumn_ext; intros s _. rewrite <- sumn_opp. apply sumn_ext; intros t _. rewrite <- sumn_opp. apply sumn_ext; intros u _. rewrite (A1 p q r). ring.
  - intros p q r. rewrite <- sumn_opp. apply sumn_ext; intros s _. rewrite <- sumn_opp. apply sumn_ext; intros t _. rewrite <- sumn_opp. apply sumn_ext; intros u _. rewrite (A2 p q r). ring.
Qed.
"""
    elif b == "aab":
        t += """  intros Ha Hb Hc Hi Hj Hk A1 A2.
  transitivity (/ 4 * (2 * (2 * F a b c i j k))); [apply f_equal|field].
  rewrite <- (del2_sum m i j (fun s t => F a b c s t k) Hi Hj) by (intros; apply A2).
  rewrite <- (del2_sum n a b (fun p q => sumn m (fun s => sumn m (fun t => del2 i j s t * F p q c s t k))) Ha Hb).
  - apply sumn_ext; intros p _. apply sumn_ext; intros q _. rewrite <- (s1 n' c (fun r => del2 a b p q * sumn m (fun s => sumn m (fun t => del2 i j s t * F p q r s t k))) Hc). apply sumn_ext; intros r _.
    rewrite <- sumn_scal, <- sumn_scal_r. apply sumn_ext; intros s _. rewrite <- sumn_scal, <- sumn_scal_r. apply sumn_ext; intros t _.
    rewrite <- (s1 m' k (fun u => F p q r s t u) Hk), <- !sumn_scal, <- sumn_scal_r. apply sumn_ext; intros u _. ring.
  - intros p q. rewrite <- sumn_opp. apply sumn_ext; intros s _. rewrite <- sumn_opp. apply sumn_ext; intros t _. rewrite (A1 p q c). ring.
Qed.
"""
    else:
        t += """  intros Ha Hb Hc Hi Hj Hk A1 A2.
  transitivity (/ 4 * (2 * (2 * F a b c i j k))); [apply f_equal|field].
  rewrite <- (del2_sum m' j k (fun t u => F a b c i t u) Hj Hk) by (intros; apply A2).
  rewrite <- (del2_sum n' b c (fun q r => sumn m' (fun t => sumn m' (fun u => del2 j k t u * F a q r i t u))) Hb Hc).
  - rewrite <- (s1 n a (fun p => sumn n' (fun q => sumn n' (fun r => del2 b c q r * sumn m' (fun t => sumn m' (fun u => del2 j k t u * F p q r i t u))))) Ha). apply sumn_ext; intros p _.
    rewrite <- sumn_scal_r. apply sumn_ext; intros q _. rewrite <- sumn_scal_r. apply sumn_ext; intros r _.
    rewrite <- (s1 m i (fun s => del2 b c q r * sumn m' (fun t => sumn m' (fun u => del2 j k t u * F p q r s t u))) Hi), <- sumn_scal_r. apply sumn_ext; intros s _.
    rewrite <- sumn_scal, <- sumn_scal_r, <- sumn_scal_r. apply sumn_ext; intros t _. rewrite <- sumn_scal, <- sumn_scal_r, <- sumn_scal_r. apply sumn_ext; intros u _. ring.
  - intros q r. rewrite <- sumn_opp. apply sumn_ext; intros t _. rewrite <- sumn_opp. apply sumn_ext; intros u _. rewrite (A1 a q r). ring.
Qed.
"""
t += """(** * Amplitudes with given triples *)
Definition t3set (T Y : amps) : amps := mkAmps (x_a T) (x_b T) (x_aa T) (x_ab T) (x_bb T) (x_aaa Y) (x_aab Y) (x_abb Y) (x_bbb Y).
Definition z6 : mat6 := fun _ _ _ _ _ _ => 0.
Definition just3 (Y1 Y2 Y3 Y4 : mat6) : amps := mkAmps (fun _ _ => 0) (fun _ _ => 0) (fun _ _ _ _ => 0) (fun _ _ _ _ => 0) (fun _ _ _ _ => 0) Y1 Y2 Y3 Y4.
"""
for n, b in enumerate(B3):
    t += f"Definition one_{b} (a b c i j k : nat) : amps := just3 " + " ".join(f"(fun p q r s t u => {ydef(b, 'pqr', 'stu')})" if x == b else "z6" for x in B3) + ".\n"
    t += f"Lemma one_{b}_anti a b c i j k : triples_anti (one_{b} a b c i j k).\nProof. unfold triples_anti, one_{b}. cbn [just3 x_aaa x_aab x_abb x_bbb]. unfold z6, del3, del2. repeat split; intros; ring. Qed.\n"
t += """Lemma fn_cre2 p q psi : cre p (cre q psi) = fun D => - cre q (cre p psi) D. Proof. apply ext_state; intros D. apply cre_cre. Qed.
Lemma fn_ann2 p q psi : ann p (ann q psi) = fun D => - ann q (ann p psi) D. Proof. apply ext_state; intros D. apply ann_ann. Qed.
Ltac push := repeat first [rewrite cre_neg|rewrite ann_neg].
Section Z.
Variables (d : dims).
Notation ref := (reference (noa d) (nob d)).
"""
for b in B3:
    bb = "aaa" if b == "bbb" else b
    args = {"aaa": "(nua d) (noa d)", "aab": None, "abb": None, "bbb": "(nub d) (nob d)"}[b]
    F = f"(fun p q r s t u => cre (v{b[0]} d p) (cre (v{b[1]} d q) (cre (v{b[2]} d r) (ann (o{b[2]} u) (ann (o{b[1]} t) (ann (o{b[0]} s) psi))))) D)"
    t += f"Lemma one_{b}_ket a b c i j k psi D : {hyps(b)} -> triples d (one_{b} a b c i j k) psi D = cre {vo(b[0],'a')} (cre {vo(b[1],'b')} (cre {vo(b[2],'c')} (ann {oo(b[2],'k')} (ann {oo(b[1],'j')} (ann {oo(b[0],'i')} psi))))) D.\nProof.\n  intros {hn(b)}. unfold triples, one_{b}. cbn [just3 x_aaa x_aab x_abb x_bbb].\n"
    t += f"  assert (Q := sum6_{bb} ARGS a b c i j k {F} {hn(b)}). cbv beta in Q.\n".replace("ARGS", {"aaa": "(noa d) (nua d)".replace("(noa d) (nua d)", "(noa d) (nua d)"), "bbb": "(nob d) (nub d)", "aab": "(noa d) (nob d) (nua d) (nub d)", "abb": "(noa d) (nob d) (nua d) (nub d)"}[b])
    t += "  rewrite Q; clear Q.\n  - unfold z6. rewrite " + ", ".join("?zero6sum" for _ in range(1)) + ". ring.\n"
    for q in swaps(b):
        w = next(x for x in range(6) if q[x] != x)
        letters = ["p", "q", "r", "s", "t", "u"]
        if w < 3: tac = {0: f"rewrite (fn_cre2 (v{b[0]} d p) (v{b[1]} d q)). reflexivity.", 1: f"rewrite (fn_cre2 (v{b[1]} d q) (v{b[2]} d r)). push. reflexivity."}[w]
        else: tac = {3: f"rewrite (fn_ann2 (o{b[1]} t) (o{b[0]} s)). push. reflexivity.", 4: f"rewrite (fn_ann2 (o{b[2]} u) (o{b[1]} t)). push. reflexivity."}[w]
        t += f"  - intros p q r s t u. {tac}\n"
    t += "Qed.\n"
t = t.replace("Section Z.\n", """Lemma zero6sum n1 n2 n3 n4 n5 n6 F : sumn n1 (fun a => sumn n2 (fun b => sumn n3 (fun c => sumn n4 (fun i => sumn n5 (fun j => sumn n6 (fun k => 0 * F a b c i j k)))))) = 0.
Proof. repeat (apply sumn_0; intros ? _). ring. Qed.
Section Z.
""")
t += "End Z.\n"
# components of (X1+X2+X3)|ref>
t += """Section C.
Variables (d : dims) (X : amps) (n : nat).
Hypothesis En : (noa d + nua d = n)%nat.
Hypothesis En' : (nob d + nub d = n)%nat.
Hypothesis HX : antisym_amps X.
Hypothesis HX3 : triples_anti X.
Notation ref := (reference (noa d) (nob d)).
Definition none : integrals := mkIntegrals (fun _ _ => 0) (fun _ _ => 0) (fun _ _ _ _ => 0) (fun _ _ _ _ => 0) (fun _ _ _ _ => 0).
Lemma none_ex : exchangeable none. Proof. split; reflexivity. Qed.
Lemma zero_anti : antisym_amps zero_amps. Proof. constructor; intros; cbn; ring. Qed.
Lemma zero_psi : expo (cluster_sd d (bare zero_amps)) 2 (pure ref) = pure ref.
Proof.
  replace (cluster_sd d (bare zero_amps)) with (fun (_ : state) (_ : N) => 0); [apply expo_zero|]. apply functional_extensionality; intros f. apply ext_state; intros D.
  unfold cluster_sd, single_op, double_op. cbn [bare zero_amps x_a x_b x_aa x_ab x_bb].
  assert (Z2 : forall n1 n2 F, sumn n1 (fun a => sumn n2 (fun b => 0 * F a b)) = 0) by (intros; repeat (apply sumn_0; intros ? _); ring).
  assert (Z4 : forall n1 n2 n3 n4 F, sumn n1 (fun a => sumn n2 (fun b => sumn n3 (fun c => sumn n4 (fun e => 0 * F a b c e)))) = 0) by (intros; repeat (apply sumn_0; intros ? _); ring).
  rewrite !Z2, !Z4. ring.
Qed.
Lemma c0_ref : cluster_sdt d X (pure ref) ref = 0.
Proof. assert (Q := cx_comp_ref d none zero_amps X n 2 En En' none_ex zero_anti HX HX3 (le_n 2)). rewrite zero_psi in Q. exact Q. Qed.
"""
for b in BL + B3:
    t += f"Lemma c0_{b} {ix(b)} : {hyps(b)} -> str {strl(b)} (cluster_sdt d X (pure ref)) ref = x_{b} X {ix(b)}.\nProof.\n  intros {hn(b)}. assert (Q := cx_comp_{b} d none zero_amps X n 2 En En' none_ex zero_anti HX HX3 (le_n 2) {ix(b)} {hn(b)}). rewrite zero_psi in Q. rewrite Q. cbn [bare zero_amps x_aa x_ab x_bb]. ring.\nQed.\n"
t += "End C.\n"
open((sys.argv[1] if len(sys.argv) > 1 else "/verif/rocq/theories/") + "CrccKet.v", "w").write(t)
