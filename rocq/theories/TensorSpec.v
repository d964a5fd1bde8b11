(** Specification vocabulary for the array programs: permutational symmetry of two-body integrals and of amplitudes, closed-shell (RHF) spin
    symmetry, inner products of amplitude vectors, and linear combinations.  Generated by tools/gen_tspec.py. *)
From Coq Require Import Reals Arith List Lra.
From Verif Require Import RSum IntegralsModel TensorObjs TensorAlg.
Import ListNotations.
Open Scope R_scope.
(** Same-spin two-body blocks are antisymmetric under exchange of the two bra (or the two ket) orbitals *)
Record antisym_ints (H : ints) : Prop := {
  ai_aa_oooo_12 : forall p q r t, i_aa_oooo H p q r t = - i_aa_oooo H q p r t;
  ai_aa_oooo_34 : forall p q r t, i_aa_oooo H p q r t = - i_aa_oooo H p q t r;
  ai_aa_ooov_12 : forall p q r t, i_aa_ooov H p q r t = - i_aa_ooov H q p r t;
  ai_aa_ooov_34 : forall p q r t, i_aa_ooov H p q r t = - i_aa_oovo H p q t r;
  ai_aa_oovo_12 : forall p q r t, i_aa_oovo H p q r t = - i_aa_oovo H q p r t;
  ai_aa_oovo_34 : forall p q r t, i_aa_oovo H p q r t = - i_aa_ooov H p q t r;
  ai_aa_oovv_12 : forall p q r t, i_aa_oovv H p q r t = - i_aa_oovv H q p r t;
  ai_aa_oovv_34 : forall p q r t, i_aa_oovv H p q r t = - i_aa_oovv H p q t r;
  ai_aa_ovoo_12 : forall p q r t, i_aa_ovoo H p q r t = - i_aa_vooo H q p r t;
  ai_aa_ovoo_34 : forall p q r t, i_aa_ovoo H p q r t = - i_aa_ovoo H p q t r;
  ai_aa_ovov_12 : forall p q r t, i_aa_ovov H p q r t = - i_aa_voov H q p r t;
  ai_aa_ovov_34 : forall p q r t, i_aa_ovov H p q r t = - i_aa_ovvo H p q t r;
  ai_aa_ovvo_12 : forall p q r t, i_aa_ovvo H p q r t = - i_aa_vovo H q p r t;
  ai_aa_ovvo_34 : forall p q r t, i_aa_ovvo H p q r t = - i_aa_ovov H p q t r;
  ai_aa_ovvv_12 : forall p q r t, i_aa_ovvv H p q r t = - i_aa_vovv H q p r t;
  ai_aa_ovvv_34 : forall p q r t, i_aa_ovvv H p q r t = - i_aa_ovvv H p q t r;
  ai_aa_vooo_12 : forall p q r t, i_aa_vooo H p q r t = - i_aa_ovoo H q p r t;
  ai_aa_vooo_34 : forall p q r t, i_aa_vooo H p q r t = - i_aa_vooo H p q t r;
  ai_aa_voov_12 : forall p q r t, i_aa_voov H p q r t = - i_aa_ovov H q p r t;
  ai_aa_voov_34 : forall p q r t, i_aa_voov H p q r t = - i_aa_vovo H p q t r;
  ai_aa_vovo_12 : forall p q r t, i_aa_vovo H p q r t = - i_aa_ovvo H q p r t;
  ai_aa_vovo_34 : forall p q r t, i_aa_vovo H p q r t = - i_aa_voov H p q t r;
  ai_aa_vovv_12 : forall p q r t, i_aa_vovv H p q r t = - i_aa_ovvv H q p r t;
  ai_aa_vovv_34 : forall p q r t, i_aa_vovv H p q r t = - i_aa_vovv H p q t r;
  ai_aa_vvoo_12 : forall p q r t, i_aa_vvoo H p q r t = - i_aa_vvoo H q p r t;
  ai_aa_vvoo_34 : forall p q r t, i_aa_vvoo H p q r t = - i_aa_vvoo H p q t r;
  ai_aa_vvov_12 : forall p q r t, i_aa_vvov H p q r t = - i_aa_vvov H q p r t;
  ai_aa_vvov_34 : forall p q r t, i_aa_vvov H p q r t = - i_aa_vvvo H p q t r;
  ai_aa_vvvo_12 : forall p q r t, i_aa_vvvo H p q r t = - i_aa_vvvo H q p r t;
  ai_aa_vvvo_34 : forall p q r t, i_aa_vvvo H p q r t = - i_aa_vvov H p q t r;
  ai_aa_vvvv_12 : forall p q r t, i_aa_vvvv H p q r t = - i_aa_vvvv H q p r t;
  ai_aa_vvvv_34 : forall p q r t, i_aa_vvvv H p q r t = - i_aa_vvvv H p q t r;
  ai_bb_oooo_12 : forall p q r t, i_bb_oooo H p q r t = - i_bb_oooo H q p r t;
  ai_bb_oooo_34 : forall p q r t, i_bb_oooo H p q r t = - i_bb_oooo H p q t r;
  ai_bb_ooov_12 : forall p q r t, i_bb_ooov H p q r t = - i_bb_ooov H q p r t;
  ai_bb_ooov_34 : forall p q r t, i_bb_ooov H p q r t = - i_bb_oovo H p q t r;
  ai_bb_oovo_12 : forall p q r t, i_bb_oovo H p q r t = - i_bb_oovo H q p r t;
  ai_bb_oovo_34 : forall p q r t, i_bb_oovo H p q r t = - i_bb_ooov H p q t r;
  ai_bb_oovv_12 : forall p q r t, i_bb_oovv H p q r t = - i_bb_oovv H q p r t;
  ai_bb_oovv_34 : forall p q r t, i_bb_oovv H p q r t = - i_bb_oovv H p q t r;
  ai_bb_ovoo_12 : forall p q r t, i_bb_ovoo H p q r t = - i_bb_vooo H q p r t;
  ai_bb_ovoo_34 : forall p q r t, i_bb_ovoo H p q r t = - i_bb_ovoo H p q t r;
  ai_bb_ovov_12 : forall p q r t, i_bb_ovov H p q r t = - i_bb_voov H q p r t;
  ai_bb_ovov_34 : forall p q r t, i_bb_ovov H p q r t = - i_bb_ovvo H p q t r;
  ai_bb_ovvo_12 : forall p q r t, i_bb_ovvo H p q r t = - i_bb_vovo H q p r t;
  ai_bb_ovvo_34 : forall p q r t, i_bb_ovvo H p q r t = - i_bb_ovov H p q t r;
  ai_bb_ovvv_12 : forall p q r t, i_bb_ovvv H p q r t = - i_bb_vovv H q p r t;
  ai_bb_ovvv_34 : forall p q r t, i_bb_ovvv H p q r t = - i_bb_ovvv H p q t r;
  ai_bb_vooo_12 : forall p q r t, i_bb_vooo H p q r t = - i_bb_ovoo H q p r t;
  ai_bb_vooo_34 : forall p q r t, i_bb_vooo H p q r t = - i_bb_vooo H p q t r;
  ai_bb_voov_12 : forall p q r t, i_bb_voov H p q r t = - i_bb_ovov H q p r t;
  ai_bb_voov_34 : forall p q r t, i_bb_voov H p q r t = - i_bb_vovo H p q t r;
  ai_bb_vovo_12 : forall p q r t, i_bb_vovo H p q r t = - i_bb_ovvo H q p r t;
  ai_bb_vovo_34 : forall p q r t, i_bb_vovo H p q r t = - i_bb_voov H p q t r;
  ai_bb_vovv_12 : forall p q r t, i_bb_vovv H p q r t = - i_bb_ovvv H q p r t;
  ai_bb_vovv_34 : forall p q r t, i_bb_vovv H p q r t = - i_bb_vovv H p q t r;
  ai_bb_vvoo_12 : forall p q r t, i_bb_vvoo H p q r t = - i_bb_vvoo H q p r t;
  ai_bb_vvoo_34 : forall p q r t, i_bb_vvoo H p q r t = - i_bb_vvoo H p q t r;
  ai_bb_vvov_12 : forall p q r t, i_bb_vvov H p q r t = - i_bb_vvov H q p r t;
  ai_bb_vvov_34 : forall p q r t, i_bb_vvov H p q r t = - i_bb_vvvo H p q t r;
  ai_bb_vvvo_12 : forall p q r t, i_bb_vvvo H p q r t = - i_bb_vvvo H q p r t;
  ai_bb_vvvo_34 : forall p q r t, i_bb_vvvo H p q r t = - i_bb_vvov H p q t r;
  ai_bb_vvvv_12 : forall p q r t, i_bb_vvvv H p q r t = - i_bb_vvvv H q p r t;
  ai_bb_vvvv_34 : forall p q r t, i_bb_vvvv H p q r t = - i_bb_vvvv H p q t r }.

(** Doubles amplitudes are antisymmetric in equal-spin particle (hole) indices *)
Record antisym_amps (X : amps) : Prop := {
  aa_aa_12 : forall a b i j, x_aa X a b i j = - x_aa X b a i j;
  aa_aa_34 : forall a b i j, x_aa X a b i j = - x_aa X a b j i;
  aa_bb_12 : forall a b i j, x_bb X a b i j = - x_bb X b a i j;
  aa_bb_34 : forall a b i j, x_bb X a b i j = - x_bb X a b j i }.

(** ... and triples *)
Record antisym_triples (X : amps) : Prop := {
  at_aaa_v0 : forall a b c i j k, x_aaa X a b c i j k = - x_aaa X b a c i j k;
  at_aaa_o0 : forall a b c i j k, x_aaa X a b c i j k = - x_aaa X a b c j i k;
  at_aaa_v1 : forall a b c i j k, x_aaa X a b c i j k = - x_aaa X a c b i j k;
  at_aaa_o1 : forall a b c i j k, x_aaa X a b c i j k = - x_aaa X a b c i k j;
  at_aab_v0 : forall a b c i j k, x_aab X a b c i j k = - x_aab X b a c i j k;
  at_aab_o0 : forall a b c i j k, x_aab X a b c i j k = - x_aab X a b c j i k;
  at_abb_v1 : forall a b c i j k, x_abb X a b c i j k = - x_abb X a c b i j k;
  at_abb_o1 : forall a b c i j k, x_abb X a b c i j k = - x_abb X a b c i k j;
  at_bbb_v0 : forall a b c i j k, x_bbb X a b c i j k = - x_bbb X b a c i j k;
  at_bbb_o0 : forall a b c i j k, x_bbb X a b c i j k = - x_bbb X a b c j i k;
  at_bbb_v1 : forall a b c i j k, x_bbb X a b c i j k = - x_bbb X a c b i j k;
  at_bbb_o1 : forall a b c i j k, x_bbb X a b c i j k = - x_bbb X a b c i k j }.

(** RHF reference: beta arrays equal alpha arrays, and the mixed arrays do not change when the two spins are exchanged *)
Record closed_ints (H : ints) : Prop := {
  ci_a_oo : forall p q, i_b_oo H p q = i_a_oo H p q;
  ci_a_ov : forall p q, i_b_ov H p q = i_a_ov H p q;
  ci_a_vo : forall p q, i_b_vo H p q = i_a_vo H p q;
  ci_a_vv : forall p q, i_b_vv H p q = i_a_vv H p q;
  ci_aa_oooo : forall p q r t, i_bb_oooo H p q r t = i_aa_oooo H p q r t;
  ci_ab_oooo : forall p q r t, i_ab_oooo H p q r t = i_ab_oooo H q p t r;
  ci_aa_ooov : forall p q r t, i_bb_ooov H p q r t = i_aa_ooov H p q r t;
  ci_ab_ooov : forall p q r t, i_ab_ooov H p q r t = i_ab_oovo H q p t r;
  ci_aa_oovo : forall p q r t, i_bb_oovo H p q r t = i_aa_oovo H p q r t;
  ci_ab_oovo : forall p q r t, i_ab_oovo H p q r t = i_ab_ooov H q p t r;
  ci_aa_oovv : forall p q r t, i_bb_oovv H p q r t = i_aa_oovv H p q r t;
  ci_ab_oovv : forall p q r t, i_ab_oovv H p q r t = i_ab_oovv H q p t r;
  ci_aa_ovoo : forall p q r t, i_bb_ovoo H p q r t = i_aa_ovoo H p q r t;
  ci_ab_ovoo : forall p q r t, i_ab_ovoo H p q r t = i_ab_vooo H q p t r;
  ci_aa_ovov : forall p q r t, i_bb_ovov H p q r t = i_aa_ovov H p q r t;
  ci_ab_ovov : forall p q r t, i_ab_ovov H p q r t = i_ab_vovo H q p t r;
  ci_aa_ovvo : forall p q r t, i_bb_ovvo H p q r t = i_aa_ovvo H p q r t;
  ci_ab_ovvo : forall p q r t, i_ab_ovvo H p q r t = i_ab_voov H q p t r;
  ci_aa_ovvv : forall p q r t, i_bb_ovvv H p q r t = i_aa_ovvv H p q r t;
  ci_ab_ovvv : forall p q r t, i_ab_ovvv H p q r t = i_ab_vovv H q p t r;
  ci_aa_vooo : forall p q r t, i_bb_vooo H p q r t = i_aa_vooo H p q r t;
  ci_ab_vooo : forall p q r t, i_ab_vooo H p q r t = i_ab_ovoo H q p t r;
  ci_aa_voov : forall p q r t, i_bb_voov H p q r t = i_aa_voov H p q r t;
  ci_ab_voov : forall p q r t, i_ab_voov H p q r t = i_ab_ovvo H q p t r;
  ci_aa_vovo : forall p q r t, i_bb_vovo H p q r t = i_aa_vovo H p q r t;
  ci_ab_vovo : forall p q r t, i_ab_vovo H p q r t = i_ab_ovov H q p t r;
  ci_aa_vovv : forall p q r t, i_bb_vovv H p q r t = i_aa_vovv H p q r t;
  ci_ab_vovv : forall p q r t, i_ab_vovv H p q r t = i_ab_ovvv H q p t r;
  ci_aa_vvoo : forall p q r t, i_bb_vvoo H p q r t = i_aa_vvoo H p q r t;
  ci_ab_vvoo : forall p q r t, i_ab_vvoo H p q r t = i_ab_vvoo H q p t r;
  ci_aa_vvov : forall p q r t, i_bb_vvov H p q r t = i_aa_vvov H p q r t;
  ci_ab_vvov : forall p q r t, i_ab_vvov H p q r t = i_ab_vvvo H q p t r;
  ci_aa_vvvo : forall p q r t, i_bb_vvvo H p q r t = i_aa_vvvo H p q r t;
  ci_ab_vvvo : forall p q r t, i_ab_vvvo H p q r t = i_ab_vvov H q p t r;
  ci_aa_vvvv : forall p q r t, i_bb_vvvv H p q r t = i_aa_vvvv H p q r t;
  ci_ab_vvvv : forall p q r t, i_ab_vvvv H p q r t = i_ab_vvvv H q p t r }.
Record closed_amps (X : amps) : Prop := {
  cx_a : forall a i, x_b X a i = x_a X a i;
  cx_aa : forall a b i j, x_bb X a b i j = x_aa X a b i j;
  cx_ab : forall a b i j, x_ab X a b i j = x_ab X b a j i }.
Record closed_triples (X : amps) : Prop := {
  cx_aaa : forall a b c i j k, x_bbb X a b c i j k = x_aaa X a b c i j k;
  cx_aab : forall a b c i j k, x_abb X a b c i j k = x_aab X b c a j k i }.

Definition sum2 (n m : nat) (f : nat -> nat -> R) : R := sumn n (fun a => sumn m (fun i => f a i)).
Definition sum4 (n1 n2 m1 m2 : nat) (f : nat -> nat -> nat -> nat -> R) : R :=
  sumn n1 (fun a => sumn n2 (fun b => sumn m1 (fun i => sumn m2 (fun j => f a b i j)))).
Definition sum6 (n1 n2 n3 m1 m2 m3 : nat) (f : nat -> nat -> nat -> nat -> nat -> nat -> R) : R :=
  sumn n1 (fun a => sumn n2 (fun b => sumn n3 (fun c => sumn m1 (fun i => sumn m2 (fun j => sumn m3 (fun k => f a b c i j k)))))).
(** Inner product of two singles-and-doubles vectors: every distinct determinant counted once *)
Definition dot2 (d : dims) (L Y : amps) : R :=
  sum2 (nua d) (noa d) (fun a i => x_a L a i * x_a Y a i)
  + sum2 (nub d) (nob d) (fun a i => x_b L a i * x_b Y a i)
  + 1 / 4 * sum4 (nua d) (nua d) (noa d) (noa d) (fun a b i j => x_aa L a b i j * x_aa Y a b i j)
  + sum4 (nua d) (nub d) (noa d) (nob d) (fun a b i j => x_ab L a b i j * x_ab Y a b i j)
  + 1 / 4 * sum4 (nub d) (nub d) (nob d) (nob d) (fun a b i j => x_bb L a b i j * x_bb Y a b i j).
(** ... singles, doubles and triples *)
Definition dot3 (d : dims) (L Y : amps) : R :=
  dot2 d L Y
  + 1 / 36 * sum6 (nua d) (nua d) (nua d) (noa d) (noa d) (noa d) (fun a b c i j k => x_aaa L a b c i j k * x_aaa Y a b c i j k)
  + 1 / 4 * sum6 (nua d) (nua d) (nub d) (noa d) (noa d) (nob d) (fun a b c i j k => x_aab L a b c i j k * x_aab Y a b c i j k)
  + 1 / 4 * sum6 (nua d) (nub d) (nub d) (noa d) (nob d) (nob d) (fun a b c i j k => x_abb L a b c i j k * x_abb Y a b c i j k)
  + 1 / 36 * sum6 (nub d) (nub d) (nub d) (nob d) (nob d) (nob d) (fun a b c i j k => x_bbb L a b c i j k * x_bbb Y a b c i j k).
(** T + t R, block by block *)
Definition amps_line (T Y : amps) (t : R) : amps := mkAmps
  (fun a i => x_a T a i + t * x_a Y a i) (fun a i => x_b T a i + t * x_b Y a i)
  (fun a b i j => x_aa T a b i j + t * x_aa Y a b i j) (fun a b i j => x_ab T a b i j + t * x_ab Y a b i j)
  (fun a b i j => x_bb T a b i j + t * x_bb Y a b i j)
  (fun a b c i j k => x_aaa T a b c i j k + t * x_aaa Y a b c i j k) (fun a b c i j k => x_aab T a b c i j k + t * x_aab Y a b c i j k)
  (fun a b c i j k => x_abb T a b c i j k + t * x_abb Y a b c i j k) (fun a b c i j k => x_bbb T a b c i j k + t * x_bbb Y a b c i j k).

(** The hypotheses are met by every Hamiltonian built from orbital integrals: [h] one-body, [v p q r s] = <pq|rs> with the particle exchange
    symmetry; occupied orbitals come first. *)
Definition off (d : dims) (x : bool) (p : nat) : nat := if x then (noa d + p)%nat else p.
Definition rhf_ints (d : dims) (h : nat -> nat -> R) (v : nat -> nat -> nat -> nat -> R) : ints := mkInts
  (fun p q => h (off d false p) (off d false q))
  (fun p q => h (off d false p) (off d true q))
  (fun p q => h (off d true p) (off d false q))
  (fun p q => h (off d true p) (off d true q))
  (fun p q => h (off d false p) (off d false q))
  (fun p q => h (off d false p) (off d true q))
  (fun p q => h (off d true p) (off d false q))
  (fun p q => h (off d true p) (off d true q))
  (fun p q r t => v (off d false p) (off d false q) (off d false r) (off d false t) - v (off d false p) (off d false q) (off d false t) (off d false r))
  (fun p q r t => v (off d false p) (off d false q) (off d false r) (off d true t) - v (off d false p) (off d false q) (off d true t) (off d false r))
  (fun p q r t => v (off d false p) (off d false q) (off d true r) (off d false t) - v (off d false p) (off d false q) (off d false t) (off d true r))
  (fun p q r t => v (off d false p) (off d false q) (off d true r) (off d true t) - v (off d false p) (off d false q) (off d true t) (off d true r))
  (fun p q r t => v (off d false p) (off d true q) (off d false r) (off d false t) - v (off d false p) (off d true q) (off d false t) (off d false r))
  (fun p q r t => v (off d false p) (off d true q) (off d false r) (off d true t) - v (off d false p) (off d true q) (off d true t) (off d false r))
  (fun p q r t => v (off d false p) (off d true q) (off d true r) (off d false t) - v (off d false p) (off d true q) (off d false t) (off d true r))
  (fun p q r t => v (off d false p) (off d true q) (off d true r) (off d true t) - v (off d false p) (off d true q) (off d true t) (off d true r))
  (fun p q r t => v (off d true p) (off d false q) (off d false r) (off d false t) - v (off d true p) (off d false q) (off d false t) (off d false r))
  (fun p q r t => v (off d true p) (off d false q) (off d false r) (off d true t) - v (off d true p) (off d false q) (off d true t) (off d false r))
  (fun p q r t => v (off d true p) (off d false q) (off d true r) (off d false t) - v (off d true p) (off d false q) (off d false t) (off d true r))
  (fun p q r t => v (off d true p) (off d false q) (off d true r) (off d true t) - v (off d true p) (off d false q) (off d true t) (off d true r))
  (fun p q r t => v (off d true p) (off d true q) (off d false r) (off d false t) - v (off d true p) (off d true q) (off d false t) (off d false r))
  (fun p q r t => v (off d true p) (off d true q) (off d false r) (off d true t) - v (off d true p) (off d true q) (off d true t) (off d false r))
  (fun p q r t => v (off d true p) (off d true q) (off d true r) (off d false t) - v (off d true p) (off d true q) (off d false t) (off d true r))
  (fun p q r t => v (off d true p) (off d true q) (off d true r) (off d true t) - v (off d true p) (off d true q) (off d true t) (off d true r))
  (fun p q r t => v (off d false p) (off d false q) (off d false r) (off d false t))
  (fun p q r t => v (off d false p) (off d false q) (off d false r) (off d true t))
  (fun p q r t => v (off d false p) (off d false q) (off d true r) (off d false t))
  (fun p q r t => v (off d false p) (off d false q) (off d true r) (off d true t))
  (fun p q r t => v (off d false p) (off d true q) (off d false r) (off d false t))
  (fun p q r t => v (off d false p) (off d true q) (off d false r) (off d true t))
  (fun p q r t => v (off d false p) (off d true q) (off d true r) (off d false t))
  (fun p q r t => v (off d false p) (off d true q) (off d true r) (off d true t))
  (fun p q r t => v (off d true p) (off d false q) (off d false r) (off d false t))
  (fun p q r t => v (off d true p) (off d false q) (off d false r) (off d true t))
  (fun p q r t => v (off d true p) (off d false q) (off d true r) (off d false t))
  (fun p q r t => v (off d true p) (off d false q) (off d true r) (off d true t))
  (fun p q r t => v (off d true p) (off d true q) (off d false r) (off d false t))
  (fun p q r t => v (off d true p) (off d true q) (off d false r) (off d true t))
  (fun p q r t => v (off d true p) (off d true q) (off d true r) (off d false t))
  (fun p q r t => v (off d true p) (off d true q) (off d true r) (off d true t))
  (fun p q r t => v (off d false p) (off d false q) (off d false r) (off d false t) - v (off d false p) (off d false q) (off d false t) (off d false r))
  (fun p q r t => v (off d false p) (off d false q) (off d false r) (off d true t) - v (off d false p) (off d false q) (off d true t) (off d false r))
  (fun p q r t => v (off d false p) (off d false q) (off d true r) (off d false t) - v (off d false p) (off d false q) (off d false t) (off d true r))
  (fun p q r t => v (off d false p) (off d false q) (off d true r) (off d true t) - v (off d false p) (off d false q) (off d true t) (off d true r))
  (fun p q r t => v (off d false p) (off d true q) (off d false r) (off d false t) - v (off d false p) (off d true q) (off d false t) (off d false r))
  (fun p q r t => v (off d false p) (off d true q) (off d false r) (off d true t) - v (off d false p) (off d true q) (off d true t) (off d false r))
  (fun p q r t => v (off d false p) (off d true q) (off d true r) (off d false t) - v (off d false p) (off d true q) (off d false t) (off d true r))
  (fun p q r t => v (off d false p) (off d true q) (off d true r) (off d true t) - v (off d false p) (off d true q) (off d true t) (off d true r))
  (fun p q r t => v (off d true p) (off d false q) (off d false r) (off d false t) - v (off d true p) (off d false q) (off d false t) (off d false r))
  (fun p q r t => v (off d true p) (off d false q) (off d false r) (off d true t) - v (off d true p) (off d false q) (off d true t) (off d false r))
  (fun p q r t => v (off d true p) (off d false q) (off d true r) (off d false t) - v (off d true p) (off d false q) (off d false t) (off d true r))
  (fun p q r t => v (off d true p) (off d false q) (off d true r) (off d true t) - v (off d true p) (off d false q) (off d true t) (off d true r))
  (fun p q r t => v (off d true p) (off d true q) (off d false r) (off d false t) - v (off d true p) (off d true q) (off d false t) (off d false r))
  (fun p q r t => v (off d true p) (off d true q) (off d false r) (off d true t) - v (off d true p) (off d true q) (off d true t) (off d false r))
  (fun p q r t => v (off d true p) (off d true q) (off d true r) (off d false t) - v (off d true p) (off d true q) (off d false t) (off d true r))
  (fun p q r t => v (off d true p) (off d true q) (off d true r) (off d true t) - v (off d true p) (off d true q) (off d true t) (off d true r)).
Lemma rhf_ints_antisym d h v : (forall p q r s, v p q r s = v q p s r) -> antisym_ints (rhf_ints d h v).
Proof.
  intros Hv. constructor; intros p q r t; cbn -[off]; match goal with |- ?a - ?b = - (?c - ?e) => first [ lra | rewrite (Hv _ _ _ _); match goal with |- ?a' - ?b' = _ => replace b' with c by (symmetry; apply Hv); lra end | idtac ] end.
Qed.
Lemma rhf_ints_closed d h v : (forall p q r s, v p q r s = v q p s r) -> closed_ints (rhf_ints d h v).
Proof. intros Hv. constructor; intros; cbn -[off]; try reflexivity; apply Hv. Qed.
(** Antisymmetrised products of two one-index-pair arrays *)
Definition prod_amps (f g : nat -> nat -> R) : amps := mkAmps f f
  (fun a b i j => f a i * g b j + g a i * f b j - f a j * g b i - g a j * f b i)
  (fun a b i j => f a i * g b j + g a i * f b j)
  (fun a b i j => f a i * g b j + g a i * f b j - f a j * g b i - g a j * f b i)
  (fun _ _ _ _ _ _ => 0) (fun _ _ _ _ _ _ => 0) (fun _ _ _ _ _ _ => 0) (fun _ _ _ _ _ _ => 0).
Lemma prod_amps_antisym f g : antisym_amps (prod_amps f g).
Proof. constructor; intros; simpl; ring. Qed.
Lemma prod_amps_closed f g : closed_amps (prod_amps f g).
Proof. constructor; intros; simpl; ring. Qed.

(** Proof support: declared symmetries of the arrays in the checker's form *)
Section Ok.
Variables (fs : list (list nat -> R)) (k k' : nat).
Lemma ok4_12 f g : nth k fs (fun _ => 0) = ap4 f -> nth k' fs (fun _ => 0) = ap4 g -> (forall p q r s, f p q r s = - g q p r s) ->
  okalt (tenv fs) k (k', [1; 0; 2; 3]%nat, false).
Proof.
  intros E1 E2 H. split.
  - intros [|a [|b [|c [|e [|]]]]] Hl; try discriminate. unfold tenv, pick. rewrite E1, E2. simpl. rewrite H. ring.
  - simpl. intros j Hj. intuition (subst; repeat constructor).
Qed.
Lemma ok4_34 f g : nth k fs (fun _ => 0) = ap4 f -> nth k' fs (fun _ => 0) = ap4 g -> (forall p q r s, f p q r s = - g p q s r) ->
  okalt (tenv fs) k (k', [0; 1; 3; 2]%nat, false).
Proof.
  intros E1 E2 H. split.
  - intros [|a [|b [|c [|e [|]]]]] Hl; try discriminate. unfold tenv, pick. rewrite E1, E2. simpl. rewrite H. ring.
  - simpl. intros j Hj. intuition (subst; repeat constructor).
Qed.
Lemma ok4_id f g : nth k fs (fun _ => 0) = ap4 f -> nth k' fs (fun _ => 0) = ap4 g -> (forall p q r s, f p q r s = g p q r s) ->
  okalt (tenv fs) k (k', [0; 1; 2; 3]%nat, true).
Proof.
  intros E1 E2 H. split.
  - intros [|a [|b [|c [|e [|]]]]] Hl; try discriminate. unfold tenv, pick. rewrite E1, E2. simpl. rewrite H. ring.
  - simpl. intros j Hj. intuition (subst; repeat constructor).
Qed.
Lemma ok4_sw f g : nth k fs (fun _ => 0) = ap4 f -> nth k' fs (fun _ => 0) = ap4 g -> (forall p q r s, f p q r s = g q p s r) ->
  okalt (tenv fs) k (k', [1; 0; 3; 2]%nat, true).
Proof.
  intros E1 E2 H. split.
  - intros [|a [|b [|c [|e [|]]]]] Hl; try discriminate. unfold tenv, pick. rewrite E1, E2. simpl. rewrite H. ring.
  - simpl. intros j Hj. intuition (subst; repeat constructor).
Qed.
Lemma ok2_id f g : nth k fs (fun _ => 0) = ap2 f -> nth k' fs (fun _ => 0) = ap2 g -> (forall p q, f p q = g p q) ->
  okalt (tenv fs) k (k', [0; 1]%nat, true).
Proof.
  intros E1 E2 H. split.
  - intros [|a [|b [|]]] Hl; try discriminate. unfold tenv, pick. rewrite E1, E2. simpl. rewrite H. ring.
  - simpl. intros j Hj. intuition (subst; repeat constructor).
Qed.
Lemma ok6_gen f g p s : nth k fs (fun _ => 0) = ap6 f -> nth k' fs (fun _ => 0) = ap6 g -> length p = 6%nat -> (forall j, In j p -> (j < 6)%nat) ->
  (forall a b c i j l, f a b c i j l = sgn s * ap6 g (pick p [a; b; c; i; j; l])) -> okalt (tenv fs) k (k', p, s).
Proof.
  intros E1 E2 El Hb H. split.
  - intros ix Hl. rewrite El in Hl. destruct ix as [|a [|b [|c [|e [|h [|m [|]]]]]]]; try discriminate. unfold tenv. rewrite E1, E2. apply H.
  - rewrite El. exact Hb.
Qed.
End Ok.
Global Hint Resolve ai_aa_oooo_12 ai_aa_oooo_34 ai_aa_ooov_12 ai_aa_ooov_34 ai_aa_oovo_12 ai_aa_oovo_34 ai_aa_oovv_12 ai_aa_oovv_34 ai_aa_ovoo_12 ai_aa_ovoo_34 ai_aa_ovov_12 ai_aa_ovov_34 ai_aa_ovvo_12 ai_aa_ovvo_34 ai_aa_ovvv_12 ai_aa_ovvv_34 ai_aa_vooo_12 ai_aa_vooo_34 ai_aa_voov_12 ai_aa_voov_34 ai_aa_vovo_12 ai_aa_vovo_34 ai_aa_vovv_12 ai_aa_vovv_34 ai_aa_vvoo_12 ai_aa_vvoo_34 ai_aa_vvov_12 ai_aa_vvov_34 ai_aa_vvvo_12 ai_aa_vvvo_34 ai_aa_vvvv_12 ai_aa_vvvv_34 ai_bb_oooo_12 ai_bb_oooo_34 ai_bb_ooov_12 ai_bb_ooov_34 ai_bb_oovo_12 ai_bb_oovo_34 ai_bb_oovv_12 ai_bb_oovv_34 ai_bb_ovoo_12 ai_bb_ovoo_34 ai_bb_ovov_12 ai_bb_ovov_34 ai_bb_ovvo_12 ai_bb_ovvo_34 ai_bb_ovvv_12 ai_bb_ovvv_34 ai_bb_vooo_12 ai_bb_vooo_34 ai_bb_voov_12 ai_bb_voov_34 ai_bb_vovo_12 ai_bb_vovo_34 ai_bb_vovv_12 ai_bb_vovv_34 ai_bb_vvoo_12 ai_bb_vvoo_34 ai_bb_vvov_12 ai_bb_vvov_34 ai_bb_vvvo_12 ai_bb_vvvo_34 ai_bb_vvvv_12 ai_bb_vvvv_34 ci_a_oo ci_a_ov ci_a_vo ci_a_vv ci_aa_oooo ci_ab_oooo ci_aa_ooov ci_ab_ooov ci_aa_oovo ci_ab_oovo ci_aa_oovv ci_ab_oovv ci_aa_ovoo ci_ab_ovoo ci_aa_ovov ci_ab_ovov ci_aa_ovvo ci_ab_ovvo ci_aa_ovvv ci_ab_ovvv ci_aa_vooo ci_ab_vooo ci_aa_voov ci_ab_voov ci_aa_vovo ci_ab_vovo ci_aa_vovv ci_ab_vovv ci_aa_vvoo ci_ab_vvoo ci_aa_vvov ci_ab_vvov ci_aa_vvvo ci_ab_vvvo ci_aa_vvvv ci_ab_vvvv aa_aa_12 aa_aa_34 aa_bb_12 aa_bb_34 at_aaa_v0 at_aaa_o0 at_aaa_v1 at_aaa_o1 at_aab_v0 at_aab_o0 at_abb_v1 at_abb_o1 at_bbb_v0 at_bbb_o0 at_bbb_v1 at_bbb_o1 cx_a cx_aa cx_ab cx_aaa cx_aab : tsym.
Ltac sym6 := eapply ok6_gen; [reflexivity|reflexivity|reflexivity|simpl; intros ? ?; intuition (subst; repeat constructor)|
  intros; unfold pick, sgn; simpl; match goal with |- ?x = _ => idtac end;
  first [ rewrite Rmult_1_l; solve [eauto with tsym] | replace (-1) with (- (1)) by ring; rewrite Ropp_mult_distr_l_reverse, Rmult_1_l; solve [eauto with tsym] ] ].
Ltac sym1 := first
  [ eapply ok4_12; [reflexivity|reflexivity|solve [eauto with tsym]]
  | eapply ok4_34; [reflexivity|reflexivity|solve [eauto with tsym]]
  | eapply ok4_id; [reflexivity|reflexivity|solve [eauto with tsym]]
  | eapply ok4_sw; [reflexivity|reflexivity|solve [eauto with tsym]]
  | eapply ok2_id; [reflexivity|reflexivity|solve [eauto with tsym]]
  | sym6 ].
Ltac sym_all := repeat (apply Forall_cons; [sym1|]); apply Forall_nil.
