"""Generate TensorSpec.v: symmetry vocabulary for Hamiltonian blocks and amplitudes."""
import itertools
B4 = ["".join(x) for x in itertools.product("ov", repeat=4)]
def sw(x, p): return "".join(x[i] for i in p)
fields, okn = [], []
for s in ["aa", "bb"]:
    for x in B4:
        fields.append((f"ai_{s}_{x}_12", f"forall p q r t, i_{s}_{x} H p q r t = - i_{s}_{sw(x,(1,0,2,3))} H q p r t"))
        fields.append((f"ai_{s}_{x}_34", f"forall p q r t, i_{s}_{x} H p q r t = - i_{s}_{sw(x,(0,1,3,2))} H p q t r"))
cs = []
for x in ["oo", "ov", "vo", "vv"]:
    cs.append((f"ci_a_{x}", f"forall p q, i_b_{x} H p q = i_a_{x} H p q"))
for x in B4:
    cs.append((f"ci_aa_{x}", f"forall p q r t, i_bb_{x} H p q r t = i_aa_{x} H p q r t"))
    cs.append((f"ci_ab_{x}", f"forall p q r t, i_ab_{x} H p q r t = i_ab_{sw(x,(1,0,3,2))} H q p t r"))
af = []
for s in ["aa", "bb"]:
    af.append((f"aa_{s}_12", f"forall a b i j, x_{s} X a b i j = - x_{s} X b a i j"))
    af.append((f"aa_{s}_34", f"forall a b i j, x_{s} X a b i j = - x_{s} X a b j i"))
at = []
for s in ["aaa", "aab", "abb", "bbb"]:
    for k in (0, 1):
        if s[k] == s[k+1]:
            v = ["a", "b", "c"]; w = v[:]; w[k], w[k+1] = w[k+1], w[k]
            at.append((f"at_{s}_v{k}", f"forall a b c i j k, x_{s} X a b c i j k = - x_{s} X {' '.join(w)} i j k"))
            v = ["i", "j", "k"]; w = v[:]; w[k], w[k+1] = w[k+1], w[k]
            at.append((f"at_{s}_o{k}", f"forall a b c i j k, x_{s} X a b c i j k = - x_{s} X a b c {' '.join(w)}"))
ca = [("cx_a", "forall a i, x_b X a i = x_a X a i"), ("cx_aa", "forall a b i j, x_bb X a b i j = x_aa X a b i j"),
      ("cx_ab", "forall a b i j, x_ab X a b i j = x_ab X b a j i")]
ct = [("cx_aaa", "forall a b c i j k, x_bbb X a b c i j k = x_aaa X a b c i j k"),
      ("cx_aab", "forall a b c i j k, x_abb X a b c i j k = x_aab X b c a j k i")]
def rec(name, par, fs):
    return f"Record {name} {par} : Prop := {{\n  " + ";\n  ".join(f"{n} : {t}" for n, t in fs) + " }.\n"
t = '''(** Specification vocabulary for the array programs: permutational symmetry of two-body integrals and of amplitudes, closed-shell (RHF) spin
    symmetry, inner products of amplitude vectors, and linear combinations.  Generated by tools/gen_tspec.py. *)
From Coq Require Import Reals Arith List Lra.
From Verif Require Import RSum IntegralsModel TensorObjs TensorAlg.
Import ListNotations.
Open Scope R_scope.
(** Same-spin two-body blocks are antisymmetric under exchange of the two bra (or the two ket) orbitals *)
''' + rec("antisym_ints", "(H : ints)", fields) + '''
(** Doubles amplitudes are antisymmetric in equal-spin particle (hole) indices *)
''' + rec("antisym_amps", "(X : amps)", af) + '''
(** ... and triples *)
''' + rec("antisym_triples", "(X : amps)", at) + '''
(** RHF reference: beta arrays equal alpha arrays, and the mixed arrays do not change when the two spins are exchanged *)
''' + rec("closed_ints", "(H : ints)", cs) + rec("closed_amps", "(X : amps)", ca) + rec("closed_triples", "(X : amps)", ct) + '''
Definition sum2 (n m : nat) (f : nat -> nat -> R) : R := sumn n (fun a => sumn m (fun i => f a i)).
Definition sum4 (n1 n2 m1 m2 : nat) (f : nat -> nat -> nat -> nat -> R) : R :=
  sumn n1 (fun a => sumn n2 (fun b => sumn m1 (fun i => sumn m2 (fun j => f a b i j)))).
Definition sum6 (n1 n2 n3 m1 m2 m3 : nat) (f : nat -> nat -> nat -> nat -> nat -> nat -> R) : R :=
  sumn n1 (fun a => sumn n2 (fun b => sumn n3 (fun c => sumn m1 (fun i => sumn m2 (fun j => sumn m3 (fun k => f a b c i j k)))))).
(** Inner product of two singles-and-doubles vectors: every distinct determinant counted once *)
Definition dot2 (d : dims) (L Y : amps) : R :=
  sum2 (nua d) (noa d) (fun a i => x_a L a i * x_a Y a i)
  + sum2 (nub d) (nob d) (fun a i => x_b L a i * x_b Y a i)
  + 1 / 4 * sum4 (nua d) (nua d) (noa d) (noa d) (fun a b i j => x_aa L a b i j * x_aa Y a b i j)
  + sum4 (nua d) (nub d) (noa d) (nob d) (fun a b i j => x_ab L a b i j * x_ab Y a b i j)
  + 1 / 4 * sum4 (nub d) (nub d) (nob d) (nob d) (fun a b i j => x_bb L a b i j * x_bb Y a b i j).
(** ... singles, doubles and triples *)
Definition dot3 (d : dims) (L Y : amps) : R :=
  dot2 d L Y
  + 1 / 36 * sum6 (nua d) (nua d) (nua d) (noa d) (noa d) (noa d) (fun a b c i j k => x_aaa L a b c i j k * x_aaa Y a b c i j k)
  + 1 / 4 * sum6 (nua d) (nua d) (nub d) (noa d) (noa d) (nob d) (fun a b c i j k => x_aab L a b c i j k * x_aab Y a b c i j k)
  + 1 / 4 * sum6 (nua d) (nub d) (nub d) (noa d) (nob d) (nob d) (fun a b c i j k => x_abb L a b c i j k * x_abb Y a b c i j k)
  + 1 / 36 * sum6 (nub d) (nub d) (nub d) (nob d) (nob d) (nob d) (fun a b c i j k => x_bbb L a b c i j k * x_bbb Y a b c i j k).
(** T + t R, block by block *)
Definition amps_line (T Y : amps) (t : R) : amps := mkAmps
  (fun a i => x_a T a i + t * x_a Y a i) (fun a i => x_b T a i + t * x_b Y a i)
  (fun a b i j => x_aa T a b i j + t * x_aa Y a b i j) (fun a b i j => x_ab T a b i j + t * x_ab Y a b i j)
  (fun a b i j => x_bb T a b i j + t * x_bb Y a b i j)
  (fun a b c i j k => x_aaa T a b c i j k + t * x_aaa Y a b c i j k) (fun a b c i j k => x_aab T a b c i j k + t * x_aab Y a b c i j k)
  (fun a b c i j k => x_abb T a b c i j k + t * x_abb Y a b c i j k) (fun a b c i j k => x_bbb T a b c i j k + t * x_bbb Y a b c i j k).

(** The hypotheses are met by every Hamiltonian built from orbital integrals: [h] one-body, [v p q r s] = <pq|rs> with the particle exchange
    symmetry; occupied orbitals come first. *)
Definition off (d : dims) (x : bool) (p : nat) : nat := if x then (noa d + p)%nat else p.
''' 
def blk2(x): return "fun p q => h " + " ".join(f"(off d {'true' if c=='v' else 'false'} {v})" for c, v in zip(x, "pq"))
def o(c, v): return f"(off d {'true' if c=='v' else 'false'} {v})"
body = []
for s in "ab":
    for x in ["oo", "ov", "vo", "vv"]: body.append(f"({blk2(x)})")
for s in ["aa", "ab", "bb"]:
    for x in B4:
        p, q, r, u = (o(c, v) for c, v in zip(x, "pqrt"))
        body.append(f"(fun p q r t => v {p} {q} {r} {u}" + ("" if s == "ab" else f" - v {p} {q} {u} {r}") + ")")
t += "Definition rhf_ints (d : dims) (h : nat -> nat -> R) (v : nat -> nat -> nat -> nat -> R) : ints := mkInts\n  " + "\n  ".join(body) + ".\n"
t += '''Lemma rhf_ints_antisym d h v : (forall p q r s, v p q r s = v q p s r) -> antisym_ints (rhf_ints d h v).
Proof.
  intros Hv. constructor; intros p q r t; cbn -[off]; match goal with |- ?a - ?b = - (?c - ?e) => first [ lra | rewrite (Hv _ _ _ _); match goal with |- ?a' - ?b' = _ => replace b' with c by (symmetry; apply Hv); lra end | idtac ] end.
Qed.
Lemma rhf_ints_closed d h v : (forall p q r s, v p q r s = v q p s r) -> closed_ints (rhf_ints d h v).
Proof. intros Hv. constructor; intros; cbn -[off]; try reflexivity; apply Hv. Qed.
(** Antisymmetrised products of two one-index-pair arrays *)
Definition prod_amps (f g : nat -> nat -> R) : amps := mkAmps f f
  (fun a b i j => f a i * g b j + g a i * f b j - f a j * g b i - g a j * f b i)
  (fun a b i j => f a i * g b j + g a i * f b j)
  (fun a b i j => f a i * g b j + g a i * f b j - f a j * g b i - g a j * f b i)
  (fun _ _ _ _ _ _ => 0) (fun _ _ _ _ _ _ => 0) (fun _ _ _ _ _ _ => 0) (fun _ _ _ _ _ _ => 0).
Lemma prod_amps_antisym f g : antisym_amps (prod_amps f g).
Proof. constructor; intros; simpl; ring. Qed.
Lemma prod_amps_closed f g : closed_amps (prod_amps f g).
Proof. constructor; intros; simpl; ring. Qed.

(** Proof support: declared symmetries of the arrays in the checker's form *)
Section Ok.
Variables (fs : list (list nat -> R)) (k k' : nat).
Lemma ok4_12 f g : nth k fs (fun _ => 0) = ap4 f -> nth k' fs (fun _ => 0) = ap4 g -> (forall p q r s, f p q r s = - g q p r s) ->
  okalt (tenv fs) k (k', [1; 0; 2; 3]%nat, false).
Proof.
  intros E1 E2 H. split.
  - intros [|a [|b [|c [|e [|]]]]] Hl; try discriminate. unfold tenv, pick. rewrite E1, E2. simpl. rewrite H. ring.
  - simpl. intros j Hj. intuition (subst; repeat constructor).
Qed.
Lemma ok4_34 f g : nth k fs (fun _ => 0) = ap4 f -> nth k' fs (fun _ => 0) = ap4 g -> (forall p q r s, f p q r s = - g p q s r) ->
  okalt (tenv fs) k (k', [0; 1; 3; 2]%nat, false).
Proof.
  intros E1 E2 H. split.
  - intros [|a [|b [|c [|e [|]]]]] Hl; try discriminate. unfold tenv, pick. rewrite E1, E2. simpl. rewrite H. ring.
  - simpl. intros j Hj. intuition (subst; repeat constructor).
Qed.
Lemma ok4_id f g : nth k fs (fun _ => 0) = ap4 f -> nth k' fs (fun _ => 0) = ap4 g -> (forall p q r s, f p q r s = g p q r s) ->
  okalt (tenv fs) k (k', [0; 1; 2; 3]%nat, true).
Proof.
  intros E1 E2 H. split.
  - intros [|a [|b [|c [|e [|]]]]] Hl; try discriminate. unfold tenv, pick. rewrite E1, E2. simpl. rewrite H. ring.
  - simpl. intros j Hj. intuition (subst; repeat constructor).
Qed.
Lemma ok4_sw f g : nth k fs (fun _ => 0) = ap4 f -> nth k' fs (fun _ => 0) = ap4 g -> (forall p q r s, f p q r s = g q p s r) ->
  okalt (tenv fs) k (k', [1; 0; 3; 2]%nat, true).
Proof.
  intros E1 E2 H. split.
  - intros [|a [|b [|c [|e [|]]]]] Hl; try discriminate. unfold tenv, pick. rewrite E1, E2. simpl. rewrite H. ring.
  - simpl. intros j Hj. intuition (subst; repeat constructor).
Qed.
Lemma ok2_id f g : nth k fs (fun _ => 0) = ap2 f -> nth k' fs (fun _ => 0) = ap2 g -> (forall p q, f p q = g p q) ->
  okalt (tenv fs) k (k', [0; 1]%nat, true).
Proof.
  intros E1 E2 H. split.
  - intros [|a [|b [|]]] Hl; try discriminate. unfold tenv, pick. rewrite E1, E2. simpl. rewrite H. ring.
  - simpl. intros j Hj. intuition (subst; repeat constructor).
Qed.
Lemma ok6_gen f g p s : nth k fs (fun _ => 0) = ap6 f -> nth k' fs (fun _ => 0) = ap6 g -> length p = 6%nat -> (forall j, In j p -> (j < 6)%nat) ->
  (forall a b c i j l, f a b c i j l = sgn s * ap6 g (pick p [a; b; c; i; j; l])) -> okalt (tenv fs) k (k', p, s).
Proof.
  intros E1 E2 El Hb H. split.
  - intros ix Hl. rewrite El in Hl. destruct ix as [|a [|b [|c [|e [|h [|m [|]]]]]]]; try discriminate. unfold tenv. rewrite E1, E2. apply H.
  - rewrite El. exact Hb.
Qed.
End Ok.
'''
hints = [n for n, _ in fields + cs + af + at + ca + ct]
t += "Global Hint Resolve " + " ".join(hints) + " : tsym.\n"
t += '''Ltac sym6 := eapply ok6_gen; [reflexivity|reflexivity|reflexivity|simpl; intros ? ?; intuition (subst; repeat constructor)|
  intros; unfold pick, sgn; simpl; match goal with |- ?x = _ => idtac end;
  first [ rewrite Rmult_1_l; solve [eauto with tsym] | replace (-1) with (- (1)) by ring; rewrite Ropp_mult_distr_l_reverse, Rmult_1_l; solve [eauto with tsym] ] ].
Ltac sym1 := first
  [ eapply ok4_12; [reflexivity|reflexivity|solve [eauto with tsym]]
  | eapply ok4_34; [reflexivity|reflexivity|solve [eauto with tsym]]
  | eapply ok4_id; [reflexivity|reflexivity|solve [eauto with tsym]]
  | eapply ok4_sw; [reflexivity|reflexivity|solve [eauto with tsym]]
  | eapply ok2_id; [reflexivity|reflexivity|solve [eauto with tsym]]
  | sym6 ].
Ltac sym_all := repeat (apply Forall_cons; [sym1|]); apply Forall_nil.
'''
open("/verif/rocq/theories/TensorSpec.v", "w").write(t)
