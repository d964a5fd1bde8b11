"""Generate PtModel.v (CCSD(T) correction) and PtFock.v (its moments against second quantisation) from /repo (text only)."""
import sys, ast, re
sys.path.insert(0, "/verif/tools")
from tgen import *
from gen_eomccsd import HEAD
from gen_ccsdt import fock_ids
import gen_crcc_parse as gp
from gen_crcc import CASE, loops
gp.SRC = "/repo/ccpy/lib/fortran/ccsdpt_loops.f90"
PY = "ccpy/moments/crcc23.py"
F90 = "ccpy/lib/fortran/ccsdpt_loops.f90"
def program():
    P = Prog("pt_", "(d : dims) (H : ints) (T : amps)", "d H T")
    env = {"T": amps("T"), "H": ints("H")}
    src = open(REPO + PY).read()
    fn = [n for n in ast.parse(src).body if isinstance(n, ast.FunctionDef) and n.name == "calc_ccsdpt"][0]
    out = {}
    def walk(body):
        for s in body:
            if isinstance(s, ast.Assign) and isinstance(s.value, ast.Call) and re.search("ccsdpt.*opt", ast.unparse(s.value.func)):
                case(s.value.func.attr[6].upper(), s.value.args)
            elif isinstance(s, ast.If): walk(s.orelse)
    def case(x, actual):
        L = gp.Loops(f"ccsdpt{x}_opt"); b = CASE[x]
        assert len(L.formals) == 1 + len(actual)
        av = {}
        for f, a in zip(L.formals[1:], actual):
            if ast.unparse(a).startswith("system"):
                assert ast.unparse(a) == {"noa": "system.noccupied_alpha", "nob": "system.noccupied_beta", "nua": "system.nunoccupied_alpha", "nub": "system.nunoccupied_beta"}[f]
                continue
            av[f] = P.val(a, env, "")
            assert av[f].arr.axes == L.dim(f), (x, f)
        axes = amp_axes(b)
        def el(nm, ix): return av[nm].arr.fn(list(ix), set("abcijkme"))
        C = "X3" + x
        tot = None
        G = L.gemms(C, list("abc"))
        for al, v, k, (an, ai), (bn, bi), _ in G:
            t = ("scale", al, ("sum", v, k, ("mul", el(an, ai), el(bn, bi))))
            tot = t if tot is None else ("add", tot, t)
        X = P.define("X3" + b, Arr(axes, lambda ix, used: tot, list("abcijk")), f"{F90}, ccsdpt{x}_opt, lines {G[0][-1][0]}-{G[-1][-1][1]} (array {C} at (a,b,c) for the loop indices i, j, k)")
        def signed(t):
            r = None
            for sg, fs in L.expr(t):
                p = None
                for nm, ix in fs:
                    e = X.arr.fn(list(ix) + list("ijk"), set()) if nm.upper() == C else el(nm, ix)
                    p = e if p is None else ("mul", p, e)
                r = (p if sg > 0 else ("neg", p)) if r is None else ("add" if sg > 0 else "sub", r, p)
            return r
        def one(nm, node, ls): return P.define(nm, Arr(axes, lambda ix, used: node, list("abcijk")), f"{F90}, ccsdpt{x}_opt, lines {ls[0]}-{ls[1]}")
        t1, t3 = L.temps["temp1"], L.temps["temp3"]
        M = one("M_" + b, signed(t1[2]), t1)
        S = one("S_" + b, signed(t3[2]), t3)
        acc = [z for z in L.temps["lines"] if z[2].replace(" ", "").startswith("LM=")]
        assert len(acc) == 1 and acc[0][2].replace(" ", "") == "LM=temp1*(temp1+temp3)"
        one("L_" + b, ("add", M.arr.fn(list("abcijk"), set()), S.arr.fn(list("abcijk"), set())), (acc[0][0], acc[0][1]))
        assert len(L.D) == 1
        one("D_" + b, signed(L.D[0][2]), L.D[0])
        ds = [z[2].replace(" ", "") for z in L.temps["lines"] if z[2].startswith("delta")]
        assert ds == ["deltaA=0.0d0", "deltaA=deltaA+LM/D"], ds
        out[x] = (L.do, gp.joined(f"ccsdpt{x}_opt"))
    walk(fn.body)
    return P, out
if __name__ == "__main__":
    out = sys.argv[1] if len(sys.argv) > 1 else "/verif/rocq/theories/"
    P, cases = program()
    t = (HEAD % ("ccsdpt", "Models ccpy/moments/crcc23.py (calc_ccsdpt) and ccpy/lib/fortran/ccsdpt_loops.f90 (ccsdptA_opt .. ccsdptD_opt).  H: the bare Hamiltonian with its Fock blocks, T: the cluster\n    amplitudes.  A dgemm call is the sum over the contracted axis it computes; a reorder_stripe call is the transposition it names (proved in ReorderProps.v).")).replace("Require Import Reals Arith.", "Require Import Reals Arith List.").replace("TensorObjs.\n", "TensorObjs.\nImport ListNotations.\n")
    t += P.text() + "\n"
    for x, (do, jl) in cases.items():
        b = CASE[x]; g = "d H T a b c i j k"
        t += f"(** {F90}, ccsdpt{x}_opt: the do loops over i, j, k, a, b, c (lines {min(a for a, e, s in jl if s.startswith('do '))}-{max(a for a, e, s in jl if s.startswith('do '))}), innermost last *)\n"
        t += f"Definition pt_loop_{b} (d : dims) : list (nat * nat * nat * nat * nat * nat) :=\n  {loops(do)}.\n"
        t += f"(** {F90}, ccsdpt{x}_opt, lines {jl[0][0]}-{jl[-1][1]} *)\n"
        t += f"Definition ccsdpt{x}_opt (d : dims) (H : ints) (T : amps) : R :=\n  fold_left (fun s q => let '(a, b, c, i, j, k) := q in let LM := pt_M_{b} {g} * pt_L_{b} {g} in s + LM / pt_D_{b} {g}) (pt_loop_{b} d) 0.\n"
    t += """(** ccpy/moments/crcc23.py, calc_ccsdpt, lines 180-224: correction_A *)
Definition calc_ccsdpt_delta (d : dims) (H : ints) (T : amps) (use_RHF : bool) : R :=
  if use_RHF then 2 * ccsdptA_opt d H T + 2 * ccsdptB_opt d H T else ccsdptA_opt d H T + ccsdptB_opt d H T + ccsdptC_opt d H T + ccsdptD_opt d H T.
(** ccpy/moments/crcc23.py, calc_ccsdpt, lines 230-234: total_energy_A *)
Definition calc_ccsdpt (d : dims) (H : ints) (T : amps) (reference_energy corr_energy : R) (use_RHF : bool) : R :=
  reference_energy + (corr_energy + calc_ccsdpt_delta d H T use_RHF).
"""
    open(out + "PtModel.v", "w").write(t)
    # moments against second quantisation
    names = [n for n in P.order if not re.match(r"pt_D_", n)]
    R = Reify(); R.alias = {"U": "T"}
    fock_ids(R)
    R.add(P, names=names, tag="k_")
    assert len(R.tens) == 66, R.tens[66:]
    n0 = len(R.out)
    u = """(** Generated by tools/gen_ccsdpt.py: the CCSD(T) moments against second quantisation (proof support). *)
From Coq Require Import Reals Arith NArith List Bool Lia Lra QArith Qreals ZArith FunctionalExtensionality.
From Verif Require Import RSum IntegralsModel TensorObjs TensorAlg TensorSpec CcsdModel CcsdUpdate CcsdReify FockSpec FockCar FockWick FockArrays FockCcSpec FockTerms FockHam FockExp FockLevel FockCheck FockState FockNear FockProj FockSector FockSectorTools
  FockFast FockSectorSpec FockFlip RankSpec FockDress FockShift FockSector3 FockTools3 CcsdtModel CcsdtUpdate SdtSpec SdtFlat SdtFock PtModel.
Import ListNotations.
Local Open Scope nat_scope.
""" + "\n".join(R.out) + "\n"
    u += """Definition pt_ht (l : list op) : list term := pmulb (pmul [mkTerm 1 [] [] l] hno) (exps2 1).
Definition pt_th (l : list op) : list term := pmulb [mkTerm 1 [] [] l] (pmul (exps2 1) hno).
Lemma th_within : Forall (within 8 40) (pmul (exps2 1) hno). Proof. apply withinb_ok. vm_compute. reflexivity. Qed.
Lemma th_okterm : forallb (okterm []) (pmul (exps2 1) hno) = true. Proof. vm_compute. reflexivity. Qed.
Lemma th_apart : apart (exps2 1) hno = true. Proof. vm_compute. reflexivity. Qed.
Definition pt_tab := Eval vm_compute in symtab fock_gens 66.
Lemma pt_htab : pt_tab = symtab fock_gens 66. Proof. vm_compute. reflexivity. Qed.
Local Open Scope R_scope.
Section F.
Variables (d : dims) (I : integrals) (T0 : amps) (n : nat).
Hypothesis En : (noa d + nua d = n)%nat.
Hypothesis En' : (nob d + nub d = n)%nat.
Hypothesis HI : exchangeable I.
Hypothesis HT : antisym_amps T0.
Notation T := (bare T0).
Notation H := (fock_ints (noa d) (nob d) I).
Notation ten := (tenv (fock_arrays H T ++ [])).
Notation ps := (psem (noa d) (nob d) (fdim d) ten).
Notation ref := (reference (noa d) (nob d)).
Notation vac := (pure ref).
Notation bra l v psi := (opsem (noa d) (nob d) l v psi ref).
Notation Ts := (cluster_sd d T).
Notation dn e v := (den (fdim d) ten e v).
Lemma pt_syms : Forall (fun g => okalt ten (fst g) (snd g)) (fock_gens ++ []).
Proof. apply sector_syms; [exact (fock_ints_antisym _ _ _ HI)|exact (bare_anti _ HT)|apply Forall_nil]. Qed.
Lemma pt_syms0 : Forall (fun g => okalt ten (fst g) (snd g)) fock_gens.
Proof. generalize pt_syms. now rewrite app_nil_r. Qed.
Lemma dpow1 psi : dpow Ts 1 psi = Ts psi.
Proof. apply ext_state; intros D. change (/ 1 * Ts psi D = Ts psi D). field. Qed.
Lemma pt_ht_ok ext l v : ext_ok (fdim d) ext v -> braok ext l = true -> ps (pt_ht l) v vac ref = bra l v (hamiltonian n I (Ts vac)).
Proof.
  intros HE HB. assert (B := HB). apply andb_prop in B as (B & _). apply andb_prop in B as (B1 & B2). unfold pt_ht.
  rewrite (pmulb_ok (noa d) (nob d) (fdim d) ten eq_refl eq_refl ext).
  - rewrite pmul_ok by (apply (apart_within 0 6 8 12); [lia|eapply bra_within; eassumption|exact hno_within]).
    rewrite (ps_exps2 d I T0 [] 1 v vac) by lia. rewrite (ps_hno d I T0 n [] En En' [] pt_syms), dpow1. rewrite psem_one. unfold tsem. cbn [t_c t_l t_f t_o ssum prodf]. rewrite Q1. ring.
  - exact HE.
  - apply (pmul_okterm ext 0 6 8 12); [lia|eapply bra_within; eassumption|exact hno_within|cbn [forallb]; now rewrite B2|].
    apply (oktests_ext ext _ 8 12); [exact B1|lia|exact hno_within|exact hno_okterm].
  - apply (oktests_ext ext _ 12 40); [exact B1|lia|apply exps2_within; lia|apply exps2_okterm; lia].
  - apply (apart_within 0 12 12 40); [lia| |apply exps2_within; lia]. apply (pmul_within 0 6 8 12); try lia; [eapply bra_within; eassumption|exact hno_within].
Qed.
Lemma pt_th_ok ext l v : ext_ok (fdim d) ext v -> braok ext l = true -> ps (pt_th l) v vac ref = bra l v (Ts (hamiltonian n I vac)).
Proof.
  intros HE HB. assert (B := HB). apply andb_prop in B as (B & _). apply andb_prop in B as (B1 & B2). unfold pt_th.
  rewrite (pmulb_ok (noa d) (nob d) (fdim d) ten eq_refl eq_refl ext).
  - rewrite psem_one. unfold tsem. cbn [t_c t_l t_f t_o ssum prodf]. rewrite Q1.
    replace (ps (pmul (exps2 1) hno) v vac) with (Ts (hamiltonian n I vac)); [ring|]. apply ext_state; intros D. rewrite (pmul_ok _ _ _ _ _ _ _ _ _ th_apart), (ps_exps2 d I T0 [] 1 v) by lia. now rewrite (ps_hno d I T0 n [] En En' [] pt_syms), dpow1.
  - exact HE.
  - cbn [forallb]. now rewrite B2.
  - apply (oktests_ext ext _ 8 40); [exact B1|lia|exact th_within|exact th_okterm].
  - apply (apart_within 0 6 8 40); [lia|eapply bra_within; eassumption|exact th_within].
Qed.
Local Open Scope nat_scope.
"""
    F1 = {"a": 11, "b": 15}; T2 = {"aa": 2, "ab": 3, "bb": 4}
    for x in "ABCD":
        b = CASE[x]
        terms = []
        # T2 F disconnected products: pick (virtual p, occupied q) for f, the rest for t2, spins must match
        for p in range(3):
            for q in range(3):
                if b[p] != b[q]: continue
                rv = [z for z in range(3) if z != p]; ro = [z for z in range(3) if z != q]
                sp = b[rv[0]] + b[rv[1]]; so = b[ro[0]] + b[ro[1]]
                assert sp == so
                sg = (-1) ** ((2 - p) + (2 - q))
                terms.append((sg, f"(EMul (ET {T2[sp]} [{rv[0]}; {rv[1]}; {3 + ro[0]}; {3 + ro[1]}]) (ET {F1[b[p]]} [{p}; {3 + q}]))"))
        e = None
        for sg, s in terms:
            s = s if sg > 0 else f"(EOpp {s})"
            e = s if e is None else f"(EAdd {e} {s})"
        L = "abcijk"
        u += f"Definition pt_f_{b} : ex := {e}.\nDefinition pt_g_{b} : ex := EAdd (k_pt_M_{b} 6 0 1 2 3 4 5) pt_f_{b}.\n"
        u += f"Lemma pt_k1_{b} : fock_fast pt_tab sdt_ext_{b} (pt_ht sdt_bra_{b}) pt_g_{b} = true. Proof. vm_compute. reflexivity. Qed.\n"
        u += f"Lemma pt_k2_{b} : fock_fast pt_tab sdt_ext_{b} (pt_th sdt_bra_{b}) pt_f_{b} = true. Proof. vm_compute. reflexivity. Qed.\n"
        dm = " -> ".join(f"({L[z]} < {('nu' if z < 3 else 'no') + b[z % 3]} d)%nat" for z in range(6))
        O = [f"o{b[z]} {L[3 + z]}" for z in range(3)]; V = [f"v{b[z]} d {L[z]}" for z in range(3)]
        u += f"""Lemma pt_comm_{b} a b c i j k : {dm} ->
  (str [(true, {O[0]}); (true, {O[1]}); (true, {O[2]}); (false, {V[2]}); (false, {V[1]}); (false, {V[0]})] (hamiltonian n I (Ts vac)) ref - str [(true, {O[0]}); (true, {O[1]}); (true, {O[2]}); (false, {V[2]}); (false, {V[1]}); (false, {V[0]})] (Ts (hamiltonian n I vac)) ref = pt_M_{b} d H T a b c i j k)%R.
Proof.
  intros Ha Hb Hc Hi Hj Hk. set (v := venv [a; b; c; i; j; k]).
  assert (HE : ext_ok (fdim d) sdt_ext_{b} v) by (unfold v; extv).
  change (bra sdt_bra_{b} v (hamiltonian n I (Ts vac)) - bra sdt_bra_{b} v (Ts (hamiltonian n I vac)) = pt_M_{b} d H T a b c i j k)%R.
  rewrite <- (pt_ht_ok sdt_ext_{b} sdt_bra_{b} v HE sdt_bk_{b}), <- (pt_th_ok sdt_ext_{b} sdt_bra_{b} v HE sdt_bk_{b}).
  rewrite (fock_fast_sound (noa d) (nob d) (fdim d) ten fock_gens 66 pt_tab sdt_ext_{b} _ pt_g_{b} v eq_refl eq_refl pt_htab pt_syms0 HE pt_k1_{b}).
  rewrite (fock_fast_sound (noa d) (nob d) (fdim d) ten fock_gens 66 pt_tab sdt_ext_{b} _ pt_f_{b} v eq_refl eq_refl pt_htab pt_syms0 HE pt_k2_{b}).
  change (dn pt_g_{b} v) with (pt_M_{b} d H T a b c i j k + dn pt_f_{b} v)%R. ring.
Qed.
"""
    u += "End F.\n"
    open(out + "PtFock.v", "w").write(u)
    # left states
    R = Reify(); R.alias = {"U": "T", "H0": "H0"}
    fock_ids(R)
    for k, b in enumerate(["a", "b", "aa", "ab", "bb"]): assert R.tid(f"x_{b} L", 2 * len(b)) == 66 + k
    PL = Prog("pt_", "(d : dims) (H : ints) (L : amps)", "d H L")
    import tgen
    for b in ("a", "b", "aa", "ab", "bb"): pass
    R.alias = {"U": "T", "T": "L"}
    R.add(P, names=names, tag="w_")
    assert len(R.tens) == 71, R.tens[71:]
    S = []
    for s, prs in (("aa", [(25, 19), (30, 24)]), ("ab", [(41, 35), (37, 34), (46, 40), (47, 44)]), ("bb", [(57, 51), (62, 56)])):
        for x, y in prs: S.append((s, f"({x}, ({y}, [2; 3; 0; 1], true))"))
    u = """(** Generated by tools/gen_ccsdpt.py: the left states of CCSD(T) against those of CR-CC(2,3) at T = 0 (proof support). *)
From Coq Require Import Reals Arith NArith List Bool Lia Lra QArith Qreals ZArith FunctionalExtensionality.
From Verif Require Import RSum IntegralsModel TensorObjs TensorAlg TensorSpec FockSpec FockArrays FockCcSpec FockTerms FockHam FockExp FockLevel FockCheck FockState FockNear FockProj FockSector FockSectorTools FockSector3 CcsdModel CcsdUpdate CcsdProps FockDress FockShift FockTools3 SdtFock CrccModel CrccReify CrccPoly PtModel PtSpec.
Import ListNotations.
Local Open Scope nat_scope.
""" + "\n".join(R.out) + f"""
Definition ptl_own : list (nat * (nat * list nat * bool)) := [(68, (68, [0; 1; 3; 2], false)); (68, (68, [1; 0; 2; 3], false)); (70, (70, [0; 1; 3; 2], false)); (70, (70, [1; 0; 2; 3], false)); {'; '.join(x for _, x in S)}].
Definition ptl_gens := fock_gens ++ ptl_own.
Definition ptl_tab := Eval vm_compute in symtab ptl_gens 71.
Lemma ptl_htab : ptl_tab = symtab ptl_gens 71. Proof. vm_compute. reflexivity. Qed.
Definition no_t (k : nat) : bool := k <? 9.
Definition no_tl (k : nat) : bool := (k <? 9) || (66 <=? k).
Local Open Scope R_scope.
Section P.
Variables (d : dims) (I : integrals) (L : amps) (H0 : ints).
Hypothesis HI : exchangeable I.
Hypothesis HS : symmetric_repulsion I.
Hypothesis HL : antisym_amps L.
Notation H := (fock_ints (noa d) (nob d) I).
Notation LS := [ap2 (x_a L); ap2 (x_b L); ap4 (x_aa L); ap4 (x_ab L); ap4 (x_bb L)].
Notation ten := (tenv (fock_arrays H zero_amps ++ LS)).
Notation dn e v := (den (fdim d) ten e v).
Lemma tr_aa p q r s : anti_aa I p q r s = anti_aa I r s p q.
Proof. destruct HS as (S1 & _). destruct HI as (X1 & _). unfold anti_aa. now rewrite (S1 p q r s), (S1 p q s r), (X1 s r p q). Qed.
Lemma tr_bb p q r s : anti_bb I p q r s = anti_bb I r s p q.
Proof. destruct HS as (_ & _ & S3). destruct HI as (_ & X2). unfold anti_bb. now rewrite (S3 p q r s), (S3 p q s r), (X2 s r p q). Qed.
Lemma tr_ab p q r s : w_ab I p q r s = w_ab I r s p q.
Proof. apply HS. Qed.
Ltac oktr H := split; [intros ix Hx; cbn [length] in Hx; destruct ix as [|? [|? [|? [|? [|? ix]]]]]; try discriminate; cbn -[Rmult IZR]; rewrite H; cbn [sgn]; ring|cbn [In length]; intros; lia].
Lemma ptl_syms : Forall (fun g => okalt ten (fst g) (snd g)) ptl_gens.
Proof.
  apply sector_syms; [exact (fock_ints_antisym _ _ _ HI)|constructor; intros; cbn; ring|]. destruct HL as [Z0 Z1 Z2 Z3].
  apply Forall_cons; [okswap Z1|]. apply Forall_cons; [okswap Z0|]. apply Forall_cons; [okswap Z3|]. apply Forall_cons; [okswap Z2|].
  """ + " ".join(f"apply Forall_cons; [oktr tr_{s}|]." for s, _ in S) + """ apply Forall_nil.
Qed.
Lemma ptl_st a b : same_tab ptl_tab (fun x => x) [0; 1; 2; 3]%nat a b = true -> forall v, dn a v = dn b v.
Proof. intros K v. exact (same_tab_sound (fdim d) ten ptl_gens 71 ptl_tab (fun x => x) _ a b ptl_htab (fun _ => eq_refl) ptl_syms K v). Qed.
Lemma ptl_zero k ix : no_t k = true -> ten k ix = 0.
Proof.
  destruct k as [|[|[|[|[|[|[|[|[|k]]]]]]]]]; intros E; try discriminate E; unfold tenv; cbn [nth app fock_arrays zero_amps x_a x_b x_aa x_ab x_bb x_aaa x_aab x_abb x_bbb];
    do 7 (destruct ix as [|? ix]; [reflexivity|]); reflexivity.
Qed.
Lemma ptl_k e v : dn (killp no_t e) v = dn e v.
Proof. apply killp_ok; [apply ptl_zero|reflexivity]. Qed.
"""
    for x in "ABCD":
        b = CASE[x]
        IX = "0 1 2 3 4 5"
        u += f"Lemma ptl_{b} a b c i j k : crcc_L_{b} d H0 (hbar_ccsd d H zero_amps) zero_amps L a b c i j k = pt_L_{b} d H L a b c i j k.\nProof.\n"
        u += f"  change (dn (k_crcc_L_{b} 10 {IX}) (venv [a; b; c; i; j; k]) = dn (w_pt_L_{b} 10 {IX}) (venv [a; b; c; i; j; k])). rewrite <- (ptl_k (k_crcc_L_{b} 10 {IX})). apply ptl_st. vm_compute. reflexivity.\nQed.\n"
    u += "End P.\nSection Z.\nVariables (d : dims) (I : integrals) (H0 : ints).\nNotation H := (fock_ints (noa d) (nob d) I).\nNotation LS := [ap2 (x_a zero_amps); ap2 (x_b zero_amps); ap4 (x_aa zero_amps); ap4 (x_ab zero_amps); ap4 (x_bb zero_amps)].\nNotation ten := (tenv (fock_arrays H zero_amps ++ LS)).\n"
    u += """Lemma ptz_zero k ix : no_tl k = true -> ten k ix = 0.
Proof.
  intros E. destruct (Nat.ltb k 9) eqn:L.
  - exact (ptl_zero d I zero_amps k ix L).
  - unfold no_tl in E. rewrite L in E. cbn [orb] in E. apply Nat.leb_le in E. replace k with (66 + (k - 66))%nat by lia. set (j := (k - 66)%nat). clearbody j.
    unfold tenv. cbn [nth app fock_arrays Nat.add zero_amps x_a x_b x_aa x_ab x_bb]. do 5 (destruct j as [|j]; [do 5 (destruct ix as [|? ix]; [reflexivity|]); reflexivity|]). now destruct j.
Qed.
"""
    for x in "ABCD":
        b = CASE[x]
        u += f"Lemma ptz_{b} a b c i j k : crcc_L_{b} d H0 (hbar_ccsd d H zero_amps) zero_amps zero_amps a b c i j k = 0.\nProof.\n"
        u += f"  change (den (fdim d) ten (k_crcc_L_{b} 10 0 1 2 3 4 5) (venv [a; b; c; i; j; k]) = 0). rewrite <- (killp_ok (fdim d) ten ten no_tl) by (apply ptz_zero || reflexivity). apply isz_ok. vm_compute. reflexivity.\nQed.\n"
    u += "End Z.\n"
    open(out + "PtLeft.v", "w").write(u)
    # closed shells
    R = Reify(); R.alias = {"U": "T"}
    R.add(P, names=names, tag="z_")
    prs = []
    for w in ("M", "L"):
        for n1, ix1, n2, ix2 in ((f"{w}_abb", "0 1 2 3 4 5", f"{w}_aab", "1 2 0 4 5 3"), (f"{w}_bbb", "0 1 2 3 4 5", f"{w}_aaa", "0 1 2 3 4 5")):
            R.out.append(f"Definition q_pt_{n1} : ex * ex := (z_pt_{n1} 6 {ix1}, z_pt_{n2} 6 {ix2}).")
            prs.append((n1, n2, ix2))
    t = """(** Generated by tools/gen_ccsdpt.py: spin symmetry of the CCSD(T) quantities in closed shells (proof support). *)
From Coq Require Import Reals Arith List ZArith.
From Verif Require Import RSum IntegralsModel TensorObjs TensorAlg TensorSpec TensorClosed TensorDeriv EomProps PtModel.
Import ListNotations.
Local Open Scope nat_scope.
""" + "\n".join(R.out) + "\n"
    t += tables(R, params="(d : dims) (H : ints) (T : amps)", name="ptrhf_", closed=True)
    t += f"""Local Open Scope R_scope.
Section C.
Variables (d : dims) (H : ints) (T : amps).
Hypothesis En : noa d = nob d.
Hypothesis Em : nua d = nub d.
Hypothesis HH : antisym_ints H.
Hypothesis CH : closed_ints H.
Hypothesis HT : antisym_amps T.
Hypothesis CT : closed_amps T.
Lemma ptrhf_syms : Forall (fun g => okalt (tenv (ptrhf_arrays d H T)) (fst g) (snd g)) ptrhf_gens.
Proof. sym_all. Qed.
Lemma ptrhf_same e1 e2 v : same_tab ptrhf_tab dfold [0; 1]%nat e1 e2 = true -> den (denv [noa d; nua d; nob d; nub d]) (tenv (ptrhf_arrays d H T)) e1 v = den (denv [noa d; nua d; nob d; nub d]) (tenv (ptrhf_arrays d H T)) e2 v.
Proof.
  intros E. apply (same_tab_sound _ _ ptrhf_gens {len(R.tens)} ptrhf_tab dfold [0; 1]%nat); [vm_compute; reflexivity|now apply dfold_ok|exact ptrhf_syms|exact E].
Qed.
"""
    for n1, n2, i2 in prs:
        L = "abcijk"
        t += f"Lemma fp_{n1} a b c i j k : pt_{n1} d H T a b c i j k = pt_{n2} d H T {' '.join(L[int(z)] for z in i2.split())}.\nProof. apply (ptrhf_same (fst q_pt_{n1}) (snd q_pt_{n1}) (venv [a; b; c; i; j; k])). vm_compute. reflexivity. Qed.\n"
    t += "Lemma fp_D_bbb a b c i j k : pt_D_bbb d H T a b c i j k = pt_D_aaa d H T a b c i j k.\nProof. unfold pt_D_bbb, pt_D_aaa. now rewrite !(ci_a_oo H CH), !(ci_a_vv H CH). Qed.\n"
    t += "Lemma fp_D_abb a b c i j k : pt_D_abb d H T a b c i j k = pt_D_aab d H T b c a j k i.\nProof. unfold pt_D_abb, pt_D_aab. rewrite !(ci_a_oo H CH), !(ci_a_vv H CH). ring. Qed.\nEnd C.\n"
    open(out + "PtRhf.v", "w").write(t)
