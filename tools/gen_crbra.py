"""Generate CrccBra.v: moments, left amplitudes and denominators of CR-CC(2,3) as matrix elements of exp(-T) H exp(T)."""
import sys, re
sys.argv_out = sys.argv[1] if len(sys.argv) > 1 else "/verif/rocq/theories/"
B3 = ["aaa", "aab", "abb", "bbb"]
BL = ["a", "b", "aa", "ab", "bb"]
VD, OD = {"a": "nua d", "b": "nub d"}, {"a": "noa d", "b": "nob d"}
V, O = "abc", "ijk"
def hyps(b): return " -> ".join([f"({V[x]} < {VD[s]})%nat" for x, s in enumerate(b)] + [f"({O[x]} < {OD[s]})%nat" for x, s in enumerate(b)])
def hn(b): return " ".join("H" + V[x] for x in range(len(b))) + " " + " ".join("H" + O[x] for x in range(len(b)))
def ix(b): return " ".join(V[:len(b)]) + " " + " ".join(O[:len(b)])
def strl(b):
    n = len(b)
    return "[" + "; ".join([f"(true, o{b[x]} {O[x]})" for x in range(n)] + [f"(false, v{b[x]} d {V[x]})" for x in reversed(range(n))]) + "]"
def sos(b): return " ".join(f"(v{b[x]} d {V[x]})" for x in range(3)) + " " + " ".join(f"(o{b[x]} {O[x]})" for x in range(3))
def lts(b): return [(p, q) for g in (V, O) for p, q in [(g[0], g[1]), (g[0], g[2]), (g[1], g[2])] if b[g.index(p)] == b[g.index(q)]]
model = open(sys.argv_out + "CrccModel.v").read()
defs = re.findall(r"^Definition (crcc_\w+) \(d : dims\)", model, re.M)
t = """(** Generated by tools/gen_crbra.py: moments, left amplitudes and denominators of CR-CC(2,3) as matrix elements of exp(-T) H exp(T) (proof support). *)
From Coq Require Import Reals Arith NArith List Bool Lia Lra FunctionalExtensionality.
From Verif Require Import RSum IntegralsModel TensorObjs TensorSpec IntsFix CcsdModel CcsdUpdate CcsdProps FockSpec FockCar FockArrays FockCcSpec FockHam FockExp FockLevel FockState FockSectorSpec FockFlip FockCount FockDress FockShift
  CcsdtModel CcsdtUpdate SdtSpec SdtFlat SdtFock SdtState HbarSpec HbarBlocks FockProj CrccModel CrccSpec CrccFock CrccHbar CrccPoly CrccDiag CrccKet.
Import ListNotations.
Local Open Scope R_scope.
(** * The quantities of the program depend on the arrays within their index ranges only *)
Section S.
Variables (d : dims) (H0 X Y : ints) (T U L : amps).
Hypothesis AG : ints_agree d X Y.
Hypothesis A1 : forall a b i j, x_aa T a b i j = x_aa U a b i j.
Hypothesis A2 : forall a b i j, x_ab T a b i j = x_ab U a b i j.
Hypothesis A3 : forall a b i j, x_bb T a b i j = x_bb U a b i j.
Ltac leaf := first [reflexivity | apply A1 | apply A2 | apply A3 | match goal with K : _ |- _ => apply K; assumption end].
Ltac cong := repeat match goal with
  | |- ?x = ?x => reflexivity
  | |- _ + _ = _ + _ => apply f_equal2 | |- _ - _ = _ - _ => apply f_equal2 | |- _ * _ = _ * _ => apply f_equal2 | |- - _ = - _ => apply f_equal
  | |- sumn _ _ = sumn _ _ => apply sumn_ext; intros ? ?
  | |- (if ?c then _ else _) = (if ?c then _ else _) => destruct c
  end; try leaf.
Ltac openag := let Q := fresh in pose proof AG as Q; unfold ints_agree in Q; repeat match goal with K : _ /\\ _ |- _ => destruct K as [? K] end.
"""
def axes_of(nm):
    m = re.search(r"^Definition %s .*?: (mat\d) := fun ([a-z ]+) =>\n  (.*)$" % nm, model, re.M)
    return m.group(1), m.group(2).split(), m.group(3)
SP = {}
def setsp(nm, l):
    SP[nm] = l
# index ranges of intermediates (spin, v/o) inferred from the leaves they use
R = {"a": "nua", "b": "nub"}
def rng(kind, s): return f"{'nu' if kind == 'v' else 'no'}{s} d"
def infer(nm):
    if nm in SP: return SP[nm]
    mt, vs, body = axes_of(nm)
    out = {}
    for m in re.finditer(r"i_(aa|ab|bb|a|b)_([ov]+) H0? ((?:\w+ ?)+)", body):
        sp, ov = m.group(1), m.group(2); ids = m.group(3).split()[:len(ov)]
        spx = {"aa": "aaaa", "bb": "bbbb", "ab": "abab", "a": "aa", "b": "bb"}[sp]
        for x, o_, s_ in zip(ids, ov, spx): out.setdefault(x, rng(o_, s_))
    for m in re.finditer(r"x_(aa|ab|bb|a|b) [TL] ((?:\w+ ?)+)", body):
        sp = m.group(1); ids = m.group(2).split()[:2 * len(sp)]
        for n_, x in enumerate(ids): out.setdefault(x, rng("v" if n_ < len(sp) else "o", sp[n_ % len(sp)]))
    for m in re.finditer(r"(crcc_\w+) (?:d H0 H T L|H) ((?:\w+ ?)+)", body):
        r = infer(m.group(1)); ids = m.group(2).split()[:len(r)]
        for x, q in zip(ids, r): out.setdefault(x, q)
    SP[nm] = [out[v] for v in vs]
    return SP[nm]
for nm in ["crcc_h_aa_vvvv", "crcc_h_ab_vvvv", "crcc_h_bb_vvvv"]: SP[nm] = {"aa": ["nua d"] * 2, "ab": ["nua d", "nub d"], "bb": ["nub d"] * 2}[nm[7:9]]
for nm in ["crcc_h_aa_vvvv", "crcc_h_ab_vvvv", "crcc_h_bb_vvvv"]:
    r = SP[nm]
    t += f"Lemma tr_{nm[5:]} a b : (a < {r[0]})%nat -> (b < {r[1]})%nat -> {nm} X a b = {nm} Y a b.\nProof. intros. openag. unfold {nm}. cong. Qed.\n"
done = ["tr_h_aa_vvvv", "tr_h_ab_vvvv", "tr_h_bb_vvvv"]
for nm in defs:
    if not re.search(r"^Definition %s \(d : dims\) \(H0 H : ints\) \(T L : amps\) : mat\d := fun" % nm, model, re.M): continue
    mt, vs, body = axes_of(nm)
    for b in B3:
        if nm.endswith("_" + b) or nm in (f"crcc_X3{b}", f"crcc_L3{b}"): SP[nm] = [rng("v", s) for s in b] + [rng("o", s) for s in b]
    r = infer(nm)
    used = sorted({x[5:] for x in re.findall(r"crcc_\w+", body)})
    lem = "tr_" + nm[5:]
    cl = "; ".join(f"try (apply tr_{u}; assumption)" for u in used)
    t += f"Lemma {lem} {' '.join(vs)} : {' -> '.join(f'({v} < {q})%nat' for v, q in zip(vs, r))} -> {nm} d H0 X T L {' '.join(vs)} = {nm} d H0 Y U L {' '.join(vs)}.\nProof. intros. openag. unfold {nm}. cong{'; ' + cl if cl else ''}. Qed.\n"
    done.append(lem)
t += "End S.\n"
open(sys.argv_out + "CrccTrans.v", "w").write(t)
t = t[:t.index("(** * The quantities")].replace("CrccKet.", "CrccKet CrccTrans.")
t += """Section K.
Variables (d : dims) (I : integrals) (T Y : amps) (n m : nat).
Hypothesis En : (noa d + nua d = n)%nat.
Hypothesis En' : (nob d + nub d = n)%nat.
Hypothesis HI : exchangeable I.
Hypothesis HT : antisym_amps T.
Hypothesis HY : triples_anti Y.
Hypothesis Hm : (noa d + nob d + 4 <= m)%nat.
Notation H := (fock_ints (noa d) (nob d) I).
Notation E := (scf_energy (noa d) (nob d) I + cc_energy d H T).
Notation ref := (reference (noa d) (nob d)).
Notation X := (ccsdt_resid d H (t3set T Y)).
Notation X0 := (ccsdt_resid d H (plain T)).
Notation S := (similar d n m I T).
Lemma set_anti : antisym_amps (t3set T Y). Proof. destruct HT. constructor; assumption. Qed.
Lemma set_tri : triples_anti (t3set T Y). Proof. exact HY. Qed.
Lemma plain_anti : antisym_amps (plain T). Proof. destruct HT. constructor; assumption. Qed.
Lemma plain_tri : triples_anti (plain T). Proof. unfold triples_anti, plain. cbn [x_aaa x_aab x_abb x_bbb]. repeat split; intros; ring. Qed.
Lemma plain_none psi D : triples d (plain T) psi D = 0.
Proof. unfold triples, plain. cbn [x_aaa x_aab x_abb x_bbb]. rewrite !zero6sum. ring. Qed.
Lemma plain_with : with3 d (plain T) (pure ref) = pure ref. Proof. apply ext_state; intros D. unfold with3. rewrite plain_none. ring. Qed.
Lemma S_linear : linear S.
Proof. unfold similar. apply (comp_linear (expo (negated (cluster_sd d T)) m) (fun psi => hamiltonian n I (expo (cluster_sd d T) m psi))); [apply unc_linear|]. apply (comp_linear (hamiltonian n I) (expo (cluster_sd d T) m)); [apply hamiltonian_linear|apply expo_linear, (exc_linear _ _ (cluster_exc d T))]. Qed.
Lemma S_ref D : sdt_space d n D -> S (pure ref) D = E * pure ref D + cluster_sdt d X0 (pure ref) D.
Proof. intros HD. assert (Q := similar_with3 d I (plain T) n m En En' HI plain_anti plain_tri Hm D HD). rewrite plain_with in Q. exact Q. Qed.
Lemma S_tri D : sdt_space d n D -> S (triples d Y (pure ref)) D = E * triples d Y (pure ref) D + (cluster_sdt d X (pure ref) D - cluster_sdt d X0 (pure ref) D).
Proof.
  intros HD. assert (Q := similar_with3 d I (t3set T Y) n m En En' HI set_anti set_tri Hm D HD). assert (Q0 := S_ref D HD).
  change (similar d n m I (t3set T Y)) with S in Q. change (with3 d (t3set T Y) (pure ref)) with (fun D => pure ref D + triples d Y (pure ref) D) in Q. change (cc_energy d H (t3set T Y)) with (cc_energy d H T) in Q.
  rewrite (lin_add S _ _ S_linear) in Q. cbv beta in Q. rewrite Q0 in Q. lra.
Qed.
Definition only3 : amps := just3 (x_aaa Y) (x_aab Y) (x_abb Y) (x_bbb Y).
Lemma only3_tri : triples_anti only3. Proof. exact HY. Qed.
Lemma only3_anti : antisym_amps only3. Proof. constructor; intros; cbn; ring. Qed.
Lemma only3_op : triples d Y (pure ref) = cluster_sdt d only3 (pure ref).
Proof.
  apply ext_state; intros D. unfold cluster_sdt, cluster_sd, single_op, double_op. unfold only3 at 1 2 3 4 5. cbn [just3 x_a x_b x_aa x_ab x_bb].
  assert (Z2 : forall n1 n2 F, sumn n1 (fun a => sumn n2 (fun b => 0 * F a b)) = 0) by (intros; repeat (apply sumn_0; intros ? _); ring).
  assert (Z4 : forall n1 n2 n3 n4 F, sumn n1 (fun a => sumn n2 (fun b => sumn n3 (fun c => sumn n4 (fun e => 0 * F a b c e)))) = 0) by (intros; repeat (apply sumn_0; intros ? _); ring).
  rewrite !Z2, !Z4. change (triples d only3) with (triples d Y). ring.
Qed.
Lemma dead_a l a : str (l ++ [(false, va d a)]) (pure ref) ref = 0.
Proof. assert (Q : str (l ++ [(false, va d a)]) (pure ref) = str l (ann (va d a) (pure ref))) by (induction l as [|[[] q] l IH]; [reflexivity|cbn [app str]; now rewrite IH..]). rewrite Q, pure_ann by (unfold va; rewrite ref_al; apply Nat.ltb_ge; lia). now rewrite (lin_zero _ (str_linear l)). Qed.
Lemma dead_b l a : str (l ++ [(false, vb d a)]) (pure ref) ref = 0.
Proof. assert (Q : str (l ++ [(false, vb d a)]) (pure ref) = str l (ann (vb d a) (pure ref))) by (induction l as [|[[] q] l IH]; [reflexivity|cbn [app str]; now rewrite IH..]). rewrite Q, pure_ann by (unfold vb; rewrite ref_be; apply Nat.ltb_ge; lia). now rewrite (lin_zero _ (str_linear l)). Qed.
Lemma flat_of f g : (forall D, sdt_space d n D -> f D = g D) -> forall D, sdt_space d n D -> (fun D => f D - g D) D = 0.
Proof. intros K D HD. cbv beta. rewrite (K D HD). ring. Qed.
Definition Gr : state := fun D => E * pure ref D + cluster_sdt d X0 (pure ref) D.
Definition Gt : state := fun D => E * triples d Y (pure ref) D + (cluster_sdt d X (pure ref) D - cluster_sdt d X0 (pure ref) D).
Lemma str_Gr l : str l Gr ref = E * str l (pure ref) ref + str l (cluster_sdt d X0 (pure ref)) ref.
Proof. unfold Gr. now rewrite (lin_add _ _ _ (str_linear l)), (lin_scal _ _ _ (str_linear l)). Qed.
Lemma str_Gt l : str l Gt ref = E * str l (cluster_sdt d only3 (pure ref)) ref + (str l (cluster_sdt d X (pure ref)) ref - str l (cluster_sdt d X0 (pure ref)) ref).
Proof. unfold Gt. rewrite only3_op. now rewrite (lin_add _ _ _ (str_linear l)), (lin_scal _ _ _ (str_linear l)), (lin_sub _ _ _ (str_linear l)). Qed.
Definition flat_r := proj1 (sdt_flat d n _ En En') (flat_of _ Gr S_ref).
Definition flat_t := proj1 (sdt_flat d n _ En En') (flat_of _ Gt S_tri).
"""
order = ["ref", "a", "b", "aa", "ab", "bb", "aaa", "aab", "abb", "bbb"]
pat = " & ".join("Q_" + x for x in order)
t += f"""Lemma r_ref : S (pure ref) ref = E.
Proof. destruct flat_r as ({pat}). cbn [str] in Q_ref. assert (Z : Gr ref = E) by (unfold Gr; rewrite (c0_ref d X0 n En En' (anti_resid_d _ _ _) (anti_resid_t _ _ _)); unfold pure; rewrite N.eqb_refl; ring). lra. Qed.
Lemma t_ref : S (triples d Y (pure ref)) ref = 0.
Proof.
  destruct flat_t as ({pat}). cbn [str] in Q_ref. assert (Z : Gt ref = 0); [|lra]. unfold Gt. rewrite only3_op.
  rewrite (c0_ref d X0 n En En' (anti_resid_d _ _ _) (anti_resid_t _ _ _)), (c0_ref d X n En En' (anti_resid_d _ _ _) (anti_resid_t _ _ _)), (c0_ref d only3 n En En' only3_anti only3_tri). ring.
Qed.
"""
for b in BL + B3:
    ln = len(b)
    last = b[0]
    pre = strl(b).rsplit(";", 1)[0] + "]"
    t += f"""Lemma r_{b} {ix(b)} : {hyps(b)} -> str {strl(b)} (S (pure ref)) ref = x_{b} X0 {ix(b)}.
Proof.
  intros {hn(b)}. destruct flat_r as ({pat}). specialize (Q_{b} {ix(b)} {hn(b)}). rewrite str_sub, str_Gr, (dead_{last} {pre} a : str {strl(b)} _ _ = 0), (c0_{b} d X0 n En En' (anti_resid_d _ _ _) (anti_resid_t _ _ _)) in Q_{b} by assumption. lra.
Qed.
Lemma t_{b} {ix(b)} : {hyps(b)} -> str {strl(b)} (S (triples d Y (pure ref))) ref = {'E * x_' + b + ' Y ' + ix(b) + ' + (' if ln == 3 else ''}x_{b} X {ix(b)} - x_{b} X0 {ix(b)}{')' if ln == 3 else ''}.
Proof.
  intros {hn(b)}. destruct flat_t as ({pat}). specialize (Q_{b} {ix(b)} {hn(b)}).
  rewrite str_sub, str_Gt, (c0_{b} d X0 n En En' (anti_resid_d _ _ _) (anti_resid_t _ _ _)), (c0_{b} d X n En En' (anti_resid_d _ _ _) (anti_resid_t _ _ _)), (c0_{b} d only3 n En En' only3_anti only3_tri) in Q_{b} by assumption.
  {'change (x_' + b + ' only3 ' + ix(b) + ') with (x_' + b + ' Y ' + ix(b) + ') in Q_' + b if ln == 3 else 'change (x_' + b + ' only3 ' + ix(b) + ') with 0 in Q_' + b}. lra.
Qed.
"""
t += """Lemma left_tri L : left_sd d L (S (triples d Y (pure ref))) = left_pair d L X - left_pair d L X0.
Proof.
  unfold left_sd, left_pair. rewrite t_ref, Rplus_0_l.
  assert (S2 : forall n1 n2 x f g h, (forall a i, (a < n1)%nat -> (i < n2)%nat -> f a i = g a i - h a i) -> sumn n1 (fun a => sumn n2 (fun i => x a i * f a i)) = sumn n1 (fun a => sumn n2 (fun i => x a i * g a i)) - sumn n1 (fun a => sumn n2 (fun i => x a i * h a i))).
  { intros n1 n2 x f g h K. rewrite <- sumn_minus. apply sumn_ext; intros a Ha. rewrite <- sumn_minus. apply sumn_ext; intros i Hi. rewrite K by assumption. ring. }
  assert (S4 : forall n1 n2 n3 n4 x f g h, (forall a b i j, (a < n1)%nat -> (b < n2)%nat -> (i < n3)%nat -> (j < n4)%nat -> f a b i j = g a b i j - h a b i j) ->
    sumn n1 (fun a => sumn n2 (fun b => sumn n3 (fun i => sumn n4 (fun j => x a b i j * f a b i j)))) = sumn n1 (fun a => sumn n2 (fun b => sumn n3 (fun i => sumn n4 (fun j => x a b i j * g a b i j)))) - sumn n1 (fun a => sumn n2 (fun b => sumn n3 (fun i => sumn n4 (fun j => x a b i j * h a b i j))))).
  { intros n1 n2 n3 n4 x f g h K. rewrite <- sumn_minus. apply sumn_ext; intros a Ha. rewrite <- sumn_minus. apply sumn_ext; intros b Hb. rewrite <- sumn_minus. apply sumn_ext; intros i Hi. rewrite <- sumn_minus. apply sumn_ext; intros j Hj. rewrite K by assumption. ring. }
  rewrite (S2 (nua d) (noa d) (x_a L) _ (x_a X) (x_a X0)) by exact t_a. rewrite (S2 (nub d) (nob d) (x_b L) _ (x_b X) (x_b X0)) by exact t_b.
  rewrite (S4 (nua d) (nua d) (noa d) (noa d) (x_aa L) _ (x_aa X) (x_aa X0)) by exact t_aa. rewrite (S4 (nua d) (nub d) (noa d) (nob d) (x_ab L) _ (x_ab X) (x_ab X0)) by exact t_ab. rewrite (S4 (nub d) (nub d) (nob d) (nob d) (x_bb L) _ (x_bb X) (x_bb X0)) by exact t_bb.
  field.
Qed.
Lemma pair_same L Z Z' : same_amps3 d Z Z' -> left_pair d L Z = left_pair d L Z'.
Proof.
  intros (B1 & B2 & B3 & B4 & B5 & _). unfold left_pair.
  repeat match goal with |- _ + _ = _ + _ => apply f_equal2 | |- 1 / 4 * _ = 1 / 4 * _ => apply f_equal end; repeat (apply sumn_ext; intros ? ?); apply f_equal; auto.
Qed.
Notation TY := (t3set T Y).
Notation H' := (fock_ints (noa d) (nob d) (dressed d TY I)).
Notation HB' := (hbar_ccsd d H' (bare TY)).
Lemma left_dressed L H0 : antisym_amps L -> left_sd d L (S (triples d Y (pure ref))) = right_pair d Y (crcc_L_aaa d H0 HB' (bare TY) L) (crcc_L_aab d H0 HB' (bare TY) L) (crcc_L_abb d H0 HB' (bare TY) L) (crcc_L_bbb d H0 HB' (bare TY) L).
Proof.
  intros HL. rewrite left_tri, (pair_same L _ _ (resid_same d I TY HI set_anti set_tri)), (pair_same L _ _ (resid_same d I (plain T) HI plain_anti plain_tri)).
  exact (poly_pair d (dressed d TY I) TY L H0 (dressed_exch d TY I HI) set_anti set_tri HL).
Qed.
Lemma agree_TY : ints_agree d (hbar_ccsd d H T) HB'. Proof. exact (hbar_agree d I TY HI set_anti). Qed.
"""
for n_, b in enumerate(B3):
    rs = " & ".join("B%d" % x for x in range(1, 10)); q = "B%d" % (6 + n_)
    t += f"""Lemma diff_{b} {ix(b)} : {hyps(b)} -> x_{b} X {ix(b)} - x_{b} X0 {ix(b)} = x_{b} (ccsdt_resid d H' (bare TY)) {ix(b)} - x_{b} (ccsdt_resid d H' (plain (bare TY))) {ix(b)}.
Proof.
  intros. destruct (resid_same d I TY HI set_anti set_tri) as ({rs}). rewrite {q} by assumption. clear {rs.replace('&','')}.
  destruct (resid_same d I (plain T) HI plain_anti plain_tri) as ({rs}). rewrite {q} by assumption. reflexivity.
Qed.
"""
t += "End K.\n"
SW = {"aaa": ["q p r s t u", "p r q s t u", "p q r t s u", "p q r s u t"], "aab": ["q p r s t u", "p q r t s u"], "abb": ["p r q s t u", "p q r s u t"]}
SW["bbb"] = SW["aaa"]
for n_, b in enumerate(B3):
    bb = "aaa" if b == "bbb" else b
    dim = {"aaa": "(noa d) (nua d)", "bbb": "(nob d) (nub d)"}.get(b, "(noa d) (nob d) (nua d) (nub d)")
    F = ["La", "Lb", "Lc", "Ld"][n_]
    t += f"""Lemma one_pair_{b} d La Lb Lc Ld {ix(b)} : {hyps(b)} -> {' -> '.join(f'(forall p q r s t u, {F} p q r s t u = - {F} {w})' for w in SW[b])} -> right_pair d (one_{b} {ix(b)}) La Lb Lc Ld = {F} {ix(b)}.
Proof.
  intros {hn(b)} {' '.join('K%d' % x for x in range(len(SW[b])))}. unfold right_pair, one_{b}. cbn [just3 x_aaa x_aab x_abb x_bbb].
  rewrite <- (sum6_{bb} {dim} a b c i j k {F} {hn(b)} {' '.join('K%d' % x for x in range(len(SW[b])))}). unfold z6. rewrite !zero6sum. field.
Qed.
"""
t += """Section F.
Variables (d : dims) (I : integrals) (T L : amps) (H0 : ints) (n m : nat).
Hypothesis En : (noa d + nua d = n)%nat.
Hypothesis En' : (nob d + nub d = n)%nat.
Hypothesis HI : exchangeable I.
Hypothesis HT : antisym_amps T.
Hypothesis HL : antisym_amps L.
Hypothesis Hm : (noa d + nob d + 4 <= m)%nat.
Notation H := (fock_ints (noa d) (nob d) I).
Notation HB := (hbar_ccsd d H T).
Notation E := (scf_energy (noa d) (nob d) I + cc_energy d H T).
Notation ref := (reference (noa d) (nob d)).
Notation S := (similar d n m I T).
Lemma hb_primary : primary_antisym HB. Proof. apply hbar_primary; [exact (fock_ints_antisym _ _ _ HI)|exact HT]. Qed.
"""
PERM = {"aaa": 4, "aab": 2, "abb": 2, "bbb": 4}
for n_, b in enumerate(B3):
    rs = " & ".join("B%d" % x for x in range(1, 10)); q = "B%d" % (6 + n_)
    bb = "aaa" if b == "bbb" else b
    dim = {"aaa": "(noa d) (nua d)", "bbb": "(nob d) (nub d)"}.get(b, "(noa d) (nob d) (nua d) (nub d)")
    lt = lts(b)
    t += f"""Lemma f_M_{b} {ix(b)} : {hyps(b)} -> bra3 d {sos(b)} (S (pure ref)) = crcc_M_{b} d H0 HB T L {ix(b)}.
Proof.
  intros {hn(b)}. change (bra3 d {sos(b)} (S (pure ref))) with (str {strl(b)} (S (pure ref)) ref).
  rewrite (r_{b} d I T n m En En' HI HT Hm {ix(b)}) by assumption.
  destruct (resid_same d I (plain T) HI (plain_anti T HT) (plain_tri T)) as ({rs}). rewrite {q} by assumption. clear {rs.replace('&','')}.
  assert (Q := poly_M_{b} d (dressed d (plain T) I) (plain T) L H0 (dressed_exch d (plain T) I HI) (plain_anti T HT) (plain_tri T) HL {ix(b)}). change (plain (bare (plain T))) with (bare (plain T)) in Q. rewrite Q; clear Q.
  symmetry. apply tr_M_{b}; try assumption; try reflexivity. exact (hbar_agree d I (plain T) HI (plain_anti T HT)).
Qed.
Lemma f_ket_{b} {ix(b)} : {hyps(b)} -> ket3 d {sos(b)} = triples d (one_{b} {ix(b)}) (pure ref).
Proof. intros. apply ext_state; intros D. symmetry. now apply one_{b}_ket. Qed.
Lemma f_L_{b} {ix(b)} : {hyps(b)} -> left_sd d L (S (ket3 d {sos(b)})) = crcc_L_{b} d H0 HB T L {ix(b)}.
Proof.
  intros {hn(b)}. rewrite f_ket_{b} by assumption. set (Y := one_{b} {ix(b)}). assert (HY : triples_anti Y) by apply one_{b}_anti.
  rewrite (left_dressed d I T Y n m En En' HI HT HY Hm L H0 HL).
  transitivity (crcc_L_{b} d H0 (hbar_ccsd d (fock_ints (noa d) (nob d) (dressed d (t3set T Y) I)) (bare (t3set T Y))) (bare (t3set T Y)) L {ix(b)}).
  2:{{ symmetry. apply tr_L_{b}; try assumption; try reflexivity. exact (agree_TY d I T Y HI HT). }}
  assert (HI' := dressed_exch d (t3set T Y) I HI). assert (HT' := set_anti T Y HT).
  apply one_pair_{b}; try assumption.
""" + "".join(f"  - intros p q r s t u. exact (poly_A_{b}{x} d (dressed d (t3set T Y) I) (t3set T Y) L H0 HI' HT' HY HL p q r s t u).\n" for x in range(PERM[b])) + f"""Qed.
Lemma f_D_{b} {ix(b)} : {hyps(b)} -> {' -> '.join(f'({p} < {r})%nat' for p, r in lt)} ->
  E - bra3 d {sos(b)} (S (ket3 d {sos(b)})) = crcc_DD_{b} d H0 HB T L {ix(b)}.
Proof.
  intros {hn(b)} {' '.join('L' + p + r for p, r in lt)}. rewrite f_ket_{b} by assumption. set (Y := one_{b} {ix(b)}). assert (HY : triples_anti Y) by apply one_{b}_anti.
  change (bra3 d {sos(b)} (S (triples d Y (pure ref)))) with (str {strl(b)} (S (triples d Y (pure ref))) ref).
  rewrite (t_{b} d I T Y n m En En' HI HT HY Hm {ix(b)}) by assumption. rewrite (diff_{b} d I T Y HI HT HY {ix(b)}) by assumption.
  assert (HI' := dressed_exch d (t3set T Y) I HI). assert (HT' := set_anti T Y HT).
  rewrite (poly_D_{b} d (dressed d (t3set T Y) I) (t3set T Y) L HI' HT' HY HL {ix(b)}) by reflexivity.
  rewrite (diag_{b} d H0 _ (bare (t3set T Y)) L {ix(b)}); try assumption; [| |exact (bare_anti _ HT')|reflexivity].
  2:{{ apply hbar_primary; [exact (fock_ints_antisym _ _ _ HI')|exact (bare_anti _ HT')]. }}
  replace (x_{b} Y {ix(b)}) with 1.
  - match goal with |- context [crcc_DD_{b} d H0 ?h ?u L {ix(b)}] => replace (crcc_DD_{b} d H0 h u L {ix(b)}) with (crcc_DD_{b} d H0 HB T L {ix(b)}) by (apply tr_DD_{b}; try assumption; try reflexivity; exact (agree_TY d I T Y HI HT)) end. ring.
  - unfold Y, one_{b}. cbn [just3 x_aaa x_aab x_abb x_bbb]. unfold del3, del2, dlt. rewrite !Nat.eqb_refl. {' '.join(f'rewrite ?(proj2 (Nat.eqb_neq {p} {r})), ?(proj2 (Nat.eqb_neq {r} {p})) by lia.' for p, r in lt)} ring.
Qed.
"""
t += "End F.\n"
open(sys.argv_out + "CrccBra.v", "w").write(t)
