#!/usr/bin/env python3
"""Writes HbarSpec.v (agreement of two sets of integral arrays, block by block) and HbarBlocks.v (every block of the
similarity-transformed Hamiltonian depends on T1 through the dressed integrals only).  Usage: gen_hbardress.py OUTDIR"""
import sys
out = sys.argv[1]
DIM = {('a', 'o'): 'noa d', ('a', 'v'): 'nua d', ('b', 'o'): 'nob d', ('b', 'v'): 'nub d'}
bl = [('a', 'oo', 'H_a_oo'), ('a', 'ov', 'H_a_ov'), ('a', 'vv', 'H_a_vv'), ('b', 'oo', 'H_b_oo'), ('b', 'ov', 'H_b_ov'), ('b', 'vv', 'H_b_vv')]
for s in ('aa', 'bb'):
    bl += [(s, 'oooo', f'H_{s}_oooo_1'), (s, 'ooov', f'H_{s}_ooov'), (s, 'oovv', None), (s, 'vooo', f'H_{s}_vooo'), (s, 'voov', f'H_{s}_voov'), (s, 'vovv', f'H_{s}_vovv'), (s, 'vvov', f'H_{s}_vvov_1'), (s, 'vvvv', f'H_{s}_vvvv_1')]
for b in 'oooo ooov oovo oovv ovoo ovov ovvo ovvv vooo voov vovo vovv vvov vvvo vvvv'.split():
    bl.append(('ab', b, None if b == 'oovv' else f'H_ab_{b}'))
def num(s, b):
    c = sum((x == 'v') << (len(b) - 1 - i) for i, x in enumerate(b))
    return {'a': 9, 'b': 13, 'aa': 17, 'ab': 33, 'bb': 49}[s] + c
def cl(s, b):
    s = s * (len(b) // len(s)) if len(s) == 1 else s * 2
    return [(0 if x == 'a' else 2) + (y == 'v') for x, y in zip(s, b)]
bl.sort(key=lambda t: num(t[0], t[1]))
N = 'noa d,nua d,nob d,nub d'.split(',')
V = ['p', 'q', 'r', 's']
o = []
o.append('(** Generated by tools/gen_hbardress.py: agreement, entry by entry and inside the dimensions, of the blocks of two sets of arrays of integrals. *)')
o.append('From Coq Require Import Reals Arith.\nFrom Verif Require Import TensorObjs.')
conj = []
for s, b, r in bl:
    v = V[:len(b)]
    conj.append('(forall ' + ' '.join(v) + ' : nat, ' + ' -> '.join(f'{x} < {N[c]}' for x, c in zip(v, cl(s, b))) + f' -> i_{s}_{b} X {" ".join(v)} = i_{s}_{b} Y {" ".join(v)})')
o.append('Local Open Scope nat_scope.')
o.append('(** All blocks build_hbar_ccsd writes (ccpy/hbar/hbar_ccsd.py) and the three oovv blocks it leaves alone; each vector over the dimensions of its own block. *)')
o.append('Definition ints_agree (d : dims) (X Y : ints) : Prop :=\n  ' + ' /\\\n  '.join(conj) + '.')
open(f'{out}/HbarSpec.v', 'w').write('\n'.join(o) + '\n')
o = []
o.append('(** Generated by tools/gen_hbardress.py: blocks of the similarity-transformed Hamiltonian of CCSD, computed from (H, T) and from (dressed H, T without T1) (proof support). *)')
o.append('''From Coq Require Import Reals Arith NArith List Bool Lia Lra QArith Qreals ZArith.
From Verif Require Import RSum IntegralsModel TensorObjs TensorAlg TensorSpec CcsdModel CcsdReify FockSpec FockCar FockWick FockArrays FockCcSpec FockTerms FockCheck FockState FockProj FockDress FockShift FockSector3 HbarDress HbarSpec.
Import ListNotations.
Local Open Scope nat_scope.
Definition axz (k : nat) : option (list nat) := if k <? 66 then axes k else Some [].
Definition hcheck (G : list (nat * nat)) (e : ex) : bool := typed axz 40 G (kill e) && same_tab ftab (fun x => x) [0; 1; 2; 3] e (inst 40 (kill e)).
Section B.
Variables (d : dims) (I : integrals) (T : amps).
Hypothesis (HI : exchangeable I) (HT : antisym_amps T).
Notation H := (fock_ints (noa d) (nob d) I).
Notation H' := (fock_ints (noa d) (nob d) (dressed d T I)).
Lemma hcheck_ok G e v : hcheck G e = true -> ranged (fdim d) G v -> den (fdim d) (ften H T) e v = den (fdim d) (ften H' (bare T)) e v.
Proof.
  intros K HR. apply andb_prop in K as (K1 & K2).
  rewrite (same_tab_sound (fdim d) (ften H T) fock_gens 66 ftab (fun x => x) [0; 1; 2; 3] _ _ ftab_eq (fun _ => eq_refl) (fock_syms _ _ (fock_ints_antisym _ _ _ HI) HT) K2 v).
  rewrite (inst_den (fdim d) (ften H T) (ften H' (bare T)) axz 40 (kill e)) with (G := G); [|intros k cs E u ix Hx| |exact K1|exact HR].
  - apply kill_ok. intros k ix Hk. destruct k as [|[|k]]; [| |lia]; unfold tenv; cbn [nth fock_arrays ap2 bare x_a x_b]; (destruct ix as [|? [|? [|]]]; reflexivity).
  - unfold axz in E. destruct (Nat.ltb_spec k 66) as [L|L]; [now apply (sub_ok d I T k cs)|]. injection E as <-. inversion Hx; subst. unfold sub.
    replace (k <? 2) with false by (symmetry; apply Nat.ltb_ge; lia). replace (k <? 9) with false by (symmetry; apply Nat.ltb_ge; lia). rewrite den_zero.
    unfold tenv. rewrite nth_overflow by (cbn [length fock_arrays]; lia). reflexivity.
  - intros k L. unfold axz. replace (k <? 66) with false by (symmetry; apply Nat.ltb_ge; lia). discriminate.
Qed.
Lemma rtt X Y e v : den (fdim d) (ften X Y) (rt e) v = den (fdim d) (tenv (jac_arrays d X Y Y)) e v.
Proof. apply retag_ok. intros k l. apply to_fock_ok. Qed.
Lemma hcheck_rt G e v : hcheck G (rt e) = true -> ranged (fdim d) G v -> den (fdim d) (tenv (jac_arrays d H T T)) e v = den (fdim d) (tenv (jac_arrays d H' (bare T) (bare T))) e v.
Proof. intros K HR. rewrite <- !rtt. now apply (hcheck_ok G). Qed.
Ltac rng := let x := fresh "x" in let c := fresh "c" in let E := fresh "E" in intros x c E; do 4 (destruct x as [|x]; [try discriminate E; cbv [lookc Nat.eqb] in E; injection E as <-; assumption|]); discriminate E.
''')
for s, b, r in bl:
    v = V[:len(b)]; n = len(b); k = num(s, b)
    hyp = ' -> '.join(f'({x} < {N[c]})' for x, c in zip(v, cl(s, b)))
    G = '[' + '; '.join(f'({i}, {c})' for i, c in enumerate(cl(s, b))) + ']'
    vv = ' '.join(v)
    o.append(f'Lemma hb_{s}_{b} {vv} : {hyp} -> i_{s}_{b} (hbar_ccsd d H T) {vv} = i_{s}_{b} (hbar_ccsd d H\' (bare T)) {vv}.')
    ix = ' '.join(str(i) for i in range(n))
    if r:
        o.append(f'Proof. intros. apply (hcheck_rt {G} (r_hb_{r} 10 {ix}) (venv [{"; ".join(v)}])); [vm_compute; reflexivity|rng]. Qed.')
    else:
        o.append(f'Proof. intros. apply (hcheck_ok {G} (ET {k} [{"; ".join(ix.split())}]) (venv [{"; ".join(v)}])); [vm_compute; reflexivity|rng]. Qed.')
o.append('Lemma hbar_agree : ints_agree d (hbar_ccsd d H T) (hbar_ccsd d H\' (bare T)).')
o.append('Proof. unfold ints_agree. ' + 'repeat match goal with |- _ /\\ _ => split end; intros; [' + '|'.join(f'now apply hb_{s}_{b}' for s, b, r in bl) + ']. Qed.')
o.append('End B.')
o.append('(** Arrays that enter the matrix-vector products, with their axes *)')
o.append('Definition blocks (k : nat) : option (list nat) :=\n  match k with 2 => Some [1; 1; 0; 0] | 3 => Some [1; 3; 0; 2] | 4 => Some [3; 3; 2; 2]\n  | ' + '\n  | '.join(f'{num(s,b)} => Some [{"; ".join(map(str, cl(s,b)))}]' for s, b, r in bl) + '\n  | _ => None end.')
names = [f'A_{s}_{b}' for s, b, r in bl]
o.append('''Lemma blocks_agree d X Y T T' : ints_agree d X Y -> (forall a b i j, x_aa T a b i j = x_aa T' a b i j) -> (forall a b i j, x_ab T a b i j = x_ab T' a b i j) -> (forall a b i j, x_bb T a b i j = x_bb T' a b i j) ->
  forall k cs, blocks k = Some cs -> forall z v ix, inrange (fdim d) v z ix cs -> ften X T k (map v ix) = ften Y T' k (map v ix).
Proof.
  intros (''' + ' & '.join(names) + ''') Taa Tab Tbb k cs E z v ix.
  do 2 (destruct k as [|k]; [discriminate|]).
  destruct k as [|k]; [injection E as <-; intros K; apply inr4 in K as (? & ? & ? & ? & -> & ? & ? & ? & ?); exact (Taa _ _ _ _)|].
  destruct k as [|k]; [injection E as <-; intros K; apply inr4 in K as (? & ? & ? & ? & -> & ? & ? & ? & ?); exact (Tab _ _ _ _)|].
  destruct k as [|k]; [injection E as <-; intros K; apply inr4 in K as (? & ? & ? & ? & -> & ? & ? & ? & ?); exact (Tbb _ _ _ _)|].''')
have = {num(s, b): (f'A_{s}_{b}', len(b)) for s, b, r in bl}
for k in range(5, 65):
    if k not in have: o.append('  destruct k as [|k]; [discriminate|].')
    else:
        nm, n = have[k]
        if n == 4: o.append(f'  destruct k as [|k]; [injection E as <-; intros K; apply inr4 in K as (? & ? & ? & ? & -> & [_ K1] & [_ K2] & [_ K3] & [_ K4]); exact ({nm} _ _ _ _ K1 K2 K3 K4)|].')
        else: o.append(f'  destruct k as [|k]; [injection E as <-; intros K; apply inr2 in K as (? & ? & -> & [_ K1] & [_ K2]); exact ({nm} _ _ K1 K2)|].')
o.append('  discriminate.\nQed.')
open(f'{out}/HbarBlocks.v', 'w').write('\n'.join(o) + '\n')
