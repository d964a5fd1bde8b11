(** Generated by tools/gen_eomsdt.py (proof support): every term of the triples vectors of EomsdtModel.v with its fixed indices renamed to those of
    the same term of the CCSDT residual; the antisymmetriser sees only the sign of the renaming. *)
From Coq Require Import Reals Arith List ZArith.
From Verif Require Import RSum IntegralsModel TensorObjs CcsdtModel CcsdtUpdate EomsdtModel.
Local Open Scope R_scope.
Definition eqc (C : mat6 -> mat6) (F G : mat6) := forall a b c i j k, C F a b c i j k = C G a b c i j k.
Definition opc (C : mat6 -> mat6) (F G : mat6) := forall a b c i j k, C F a b c i j k = - C G a b c i j k.
Definition addc (C : mat6 -> mat6) := forall F G a b c i j k, C (fun a b c i j k => F a b c i j k + G a b c i j k) a b c i j k = C F a b c i j k + C G a b c i j k.
Definition subc (C : mat6 -> mat6) := forall F G a b c i j k, C (fun a b c i j k => F a b c i j k - G a b c i j k) a b c i j k = C F a b c i j k - C G a b c i j k.
Definition oppc (C : mat6 -> mat6) := forall F a b c i j k, C (fun a b c i j k => - F a b c i j k) a b c i j k = - C F a b c i j k.
Lemma comb3_add : addc comb3. Proof. intros F G a b c i j k. unfold comb3. ring. Qed.
Lemma comb3_sub : subc comb3. Proof. intros F G a b c i j k. unfold comb3. ring. Qed.
Lemma comb3_opp : oppc comb3. Proof. intros F a b c i j k. unfold comb3. ring. Qed.
Lemma comb3b_add : addc comb3b. Proof. intros F G a b c i j k. unfold comb3b. ring. Qed.
Lemma comb3b_sub : subc comb3b. Proof. intros F G a b c i j k. unfold comb3b. ring. Qed.
Lemma comb3b_opp : oppc comb3b. Proof. intros F a b c i j k. unfold comb3b. ring. Qed.
Lemma comb3c_add : addc comb3c. Proof. intros F G a b c i j k. unfold comb3c. ring. Qed.
Lemma comb3c_sub : subc comb3c. Proof. intros F G a b c i j k. unfold comb3c. ring. Qed.
Lemma comb3c_opp : oppc comb3c. Proof. intros F a b c i j k. unfold comb3c. ring. Qed.
Section Norm.
Variable C : mat6 -> mat6.
Lemma nstart_p t' t : eqc C t' t -> eqc C (fun a b c i j k => t' a b c i j k) t. Proof. auto. Qed.
Variables (Ca : addc C) (Cs : subc C) (Co : oppc C).
Lemma nstart_m t' t : opc C t' t -> eqc C (fun a b c i j k => - t' a b c i j k) t.
Proof. intros E a b c i j k. rewrite Co, E. ring. Qed.
Variables F' F t' t : mat6.
Lemma nadd_p : eqc C F' F -> eqc C t' t -> eqc C (fun a b c i j k => F' a b c i j k + t' a b c i j k) (fun a b c i j k => F a b c i j k + t a b c i j k).
Proof using Ca Cs. intros E1 E2 a b c i j k. rewrite !Ca, E1, E2. reflexivity. Qed.
Lemma nadd_m : eqc C F' F -> opc C t' t -> eqc C (fun a b c i j k => F' a b c i j k - t' a b c i j k) (fun a b c i j k => F a b c i j k + t a b c i j k).
Proof using Ca Cs. intros E1 E2 a b c i j k. rewrite Cs, Ca, E1, E2. ring. Qed.
Lemma nsub_p : eqc C F' F -> eqc C t' t -> eqc C (fun a b c i j k => F' a b c i j k - t' a b c i j k) (fun a b c i j k => F a b c i j k - t a b c i j k).
Proof using Ca Cs. intros E1 E2 a b c i j k. rewrite !Cs, E1, E2. reflexivity. Qed.
Lemma nsub_m : eqc C F' F -> opc C t' t -> eqc C (fun a b c i j k => F' a b c i j k + t' a b c i j k) (fun a b c i j k => F a b c i j k - t a b c i j k).
Proof using Ca Cs. intros E1 E2 a b c i j k. rewrite Cs, Ca, E1, E2. ring. Qed.
End Norm.
Ltac c3p f := let g := fresh in generalize f; intro g; cbv [comb3 comb3b comb3c]; ring.
(** ccpy/eomcc/eomccsdt.py, build_HR_3A, line 194: the term added there *)
Definition eomn_X3At0 (d : dims) (H : ints) (T R : amps) : mat6 := fun a b c i j k =>
  1 / 4 * (sumn (nua d) (fun e => (eomt_X_aa_vvov_2 d H T R b a j e) * (x_aa T e c i k))).
(** ccpy/eomcc/eomccsdt.py, build_HR_3A, line 194: all terms up to this one, renamed *)
Definition eomn_X3As0 (d : dims) (H : ints) (T R : amps) : mat6 := fun a b c i j k =>
  eomn_X3At0 d H T R b a c j i k.
(** ccpy/eomcc/eomccsdt.py, build_HR_3A, line 195: the term added there *)
Definition eomn_X3At1 (d : dims) (H : ints) (T R : amps) : mat6 := fun a b c i j k =>
  1 / 4 * (sumn (nua d) (fun e => (i_aa_vvov H b a j e) * (x_aa R e c i k))).
(** ccpy/eomcc/eomccsdt.py, build_HR_3A, line 195: all terms up to this one, renamed *)
Definition eomn_X3As1 (d : dims) (H : ints) (T R : amps) : mat6 := fun a b c i j k =>
  eomn_X3As0 d H T R a b c i j k + eomn_X3At1 d H T R b a c j i k.
(** ccpy/eomcc/eomccsdt.py, build_HR_3A, line 196: the term added there *)
Definition eomn_X3At2 (d : dims) (H : ints) (T R : amps) : mat6 := fun a b c i j k =>
  1 / 4 * (sumn (noa d) (fun m => (eomt_X_aa_vooo_2 d H T R b m j i) * (x_aa T a c m k))).
(** ccpy/eomcc/eomccsdt.py, build_HR_3A, line 196: all terms up to this one, renamed *)
Definition eomn_X3As2 (d : dims) (H : ints) (T R : amps) : mat6 := fun a b c i j k =>
  eomn_X3As1 d H T R a b c i j k - eomn_X3At2 d H T R b a c j i k.
(** ccpy/eomcc/eomccsdt.py, build_HR_3A, line 197: the term added there *)
Definition eomn_X3At3 (d : dims) (H : ints) (T R : amps) : mat6 := fun a b c i j k =>
  1 / 4 * (sumn (noa d) (fun m => (i_aa_vooo H b m j i) * (x_aa R a c m k))).
(** ccpy/eomcc/eomccsdt.py, build_HR_3A, line 197: all terms up to this one, renamed *)
Definition eomn_X3As3 (d : dims) (H : ints) (T R : amps) : mat6 := fun a b c i j k =>
  eomn_X3As2 d H T R a b c i j k - eomn_X3At3 d H T R b a c j i k.
(** ccpy/eomcc/eomccsdt.py, build_HR_3A, line 199: the term added there *)
Definition eomn_X3At4 (d : dims) (H : ints) (T R : amps) : mat6 := fun a b c i j k =>
  1 / 12 * (sumn (nua d) (fun e => (eomt_X_a_vv_1 d H T R b e) * (x_aaa T a e c i j k))).
(** ccpy/eomcc/eomccsdt.py, build_HR_3A, line 199: all terms up to this one, renamed *)
Definition eomn_X3As4 (d : dims) (H : ints) (T R : amps) : mat6 := fun a b c i j k =>
  eomn_X3As3 d H T R a b c i j k - eomn_X3At4 d H T R a c b i j k.
(** ccpy/eomcc/eomccsdt.py, build_HR_3A, line 200: the term added there *)
Definition eomn_X3At5 (d : dims) (H : ints) (T R : amps) : mat6 := fun a b c i j k =>
  1 / 12 * (sumn (noa d) (fun m => (eomt_X_a_oo_1 d H T R m j) * (x_aaa T a b c i m k))).
(** ccpy/eomcc/eomccsdt.py, build_HR_3A, line 200: all terms up to this one, renamed *)
Definition eomn_X3As5 (d : dims) (H : ints) (T R : amps) : mat6 := fun a b c i j k =>
  eomn_X3As4 d H T R a b c i j k + eomn_X3At5 d H T R a b c i k j.
(** ccpy/eomcc/eomccsdt.py, build_HR_3A, line 201: the term added there *)
Definition eomn_X3At6 (d : dims) (H : ints) (T R : amps) : mat6 := fun a b c i j k =>
  1 / 24 * (sumn (noa d) (fun m => sumn (noa d) (fun n => (eomt_X_aa_oooo_1 d H T R m n i j) * (x_aaa T a b c m n k)))).
(** ccpy/eomcc/eomccsdt.py, build_HR_3A, line 201: all terms up to this one, renamed *)
Definition eomn_X3As6 (d : dims) (H : ints) (T R : amps) : mat6 := fun a b c i j k =>
  eomn_X3As5 d H T R a b c i j k + eomn_X3At6 d H T R a b c i j k.
(** ccpy/eomcc/eomccsdt.py, build_HR_3A, line 202: the term added there *)
Definition eomn_X3At7 (d : dims) (H : ints) (T R : amps) : mat6 := fun a b c i j k =>
  1 / 24 * (sumn (nua d) (fun e => sumn (nua d) (fun f => (eomt_X_aa_vvvv_1 d H T R a b e f) * (x_aaa T e f c i j k)))).
(** ccpy/eomcc/eomccsdt.py, build_HR_3A, line 202: all terms up to this one, renamed *)
Definition eomn_X3As7 (d : dims) (H : ints) (T R : amps) : mat6 := fun a b c i j k =>
  eomn_X3As6 d H T R a b c i j k + eomn_X3At7 d H T R a b c i j k.
(** ccpy/eomcc/eomccsdt.py, build_HR_3A, line 203: the term added there *)
Definition eomn_X3At8 (d : dims) (H : ints) (T R : amps) : mat6 := fun a b c i j k =>
  1 / 4 * (sumn (noa d) (fun m => sumn (nua d) (fun e => (eomt_X_aa_voov d H T R b m j e) * (x_aaa T a e c i m k)))).
(** ccpy/eomcc/eomccsdt.py, build_HR_3A, line 203: all terms up to this one, renamed *)
Definition eomn_X3As8 (d : dims) (H : ints) (T R : amps) : mat6 := fun a b c i j k =>
  eomn_X3As7 d H T R a b c i j k + eomn_X3At8 d H T R a c b i k j.
(** ccpy/eomcc/eomccsdt.py, build_HR_3A, line 204: the term added there *)
Definition eomn_X3At9 (d : dims) (H : ints) (T R : amps) : mat6 := fun a b c i j k =>
  1 / 4 * (sumn (nob d) (fun m => sumn (nub d) (fun e => (eomt_X_ab_voov d H T R b m j e) * (x_aab T a c e i k m)))).
(** ccpy/eomcc/eomccsdt.py, build_HR_3A, line 204: all terms up to this one, renamed *)
Definition eomn_X3As9 (d : dims) (H : ints) (T R : amps) : mat6 := fun a b c i j k =>
  eomn_X3As8 d H T R a b c i j k + eomn_X3At9 d H T R a c b i k j.
(** ccpy/eomcc/eomccsdt.py, build_HR_3A, line 206: the term added there *)
Definition eomn_X3At10 (d : dims) (H : ints) (T R : amps) : mat6 := fun a b c i j k =>
  1 / 12 * (sumn (noa d) (fun m => (i_a_oo H m j) * (x_aaa R a b c i m k))).
(** ccpy/eomcc/eomccsdt.py, build_HR_3A, line 206: all terms up to this one, renamed *)
Definition eomn_X3As10 (d : dims) (H : ints) (T R : amps) : mat6 := fun a b c i j k =>
  eomn_X3As9 d H T R a b c i j k + eomn_X3At10 d H T R a b c i k j.
(** ccpy/eomcc/eomccsdt.py, build_HR_3A, line 207: the term added there *)
Definition eomn_X3At11 (d : dims) (H : ints) (T R : amps) : mat6 := fun a b c i j k =>
  1 / 12 * (sumn (nua d) (fun e => (i_a_vv H b e) * (x_aaa R a e c i j k))).
(** ccpy/eomcc/eomccsdt.py, build_HR_3A, line 207: all terms up to this one, renamed *)
Definition eomn_X3As11 (d : dims) (H : ints) (T R : amps) : mat6 := fun a b c i j k =>
  eomn_X3As10 d H T R a b c i j k - eomn_X3At11 d H T R a c b i j k.
(** ccpy/eomcc/eomccsdt.py, build_HR_3A, line 208: the term added there *)
Definition eomn_X3At12 (d : dims) (H : ints) (T R : amps) : mat6 := fun a b c i j k =>
  1 / 24 * (sumn (noa d) (fun m => sumn (noa d) (fun n => (i_aa_oooo H m n i j) * (x_aaa R a b c m n k)))).
(** ccpy/eomcc/eomccsdt.py, build_HR_3A, line 208: all terms up to this one, renamed *)
Definition eomn_X3As12 (d : dims) (H : ints) (T R : amps) : mat6 := fun a b c i j k =>
  eomn_X3As11 d H T R a b c i j k + eomn_X3At12 d H T R a b c i j k.
(** ccpy/eomcc/eomccsdt.py, build_HR_3A, line 209: the term added there *)
Definition eomn_X3At13 (d : dims) (H : ints) (T R : amps) : mat6 := fun a b c i j k =>
  1 / 24 * (sumn (nua d) (fun e => sumn (nua d) (fun f => (i_aa_vvvv H a b e f) * (x_aaa R e f c i j k)))).
(** ccpy/eomcc/eomccsdt.py, build_HR_3A, line 209: all terms up to this one, renamed *)
Definition eomn_X3As13 (d : dims) (H : ints) (T R : amps) : mat6 := fun a b c i j k =>
  eomn_X3As12 d H T R a b c i j k + eomn_X3At13 d H T R a b c i j k.
(** ccpy/eomcc/eomccsdt.py, build_HR_3A, line 210: the term added there *)
Definition eomn_X3At14 (d : dims) (H : ints) (T R : amps) : mat6 := fun a b c i j k =>
  1 / 4 * (sumn (noa d) (fun m => sumn (nua d) (fun e => (i_aa_voov H a m i e) * (x_aaa R e b c m j k)))).
(** ccpy/eomcc/eomccsdt.py, build_HR_3A, line 210: all terms up to this one, renamed *)
Definition eomn_X3As14 (d : dims) (H : ints) (T R : amps) : mat6 := fun a b c i j k =>
  eomn_X3As13 d H T R a b c i j k + eomn_X3At14 d H T R c a b k i j.
(** ccpy/eomcc/eomccsdt.py, build_HR_3A, line 211: the term added there *)
Definition eomn_X3At15 (d : dims) (H : ints) (T R : amps) : mat6 := fun a b c i j k =>
  1 / 4 * (sumn (nob d) (fun m => sumn (nub d) (fun e => (i_ab_voov H a m i e) * (x_aab R b c e j k m)))).
(** ccpy/eomcc/eomccsdt.py, build_HR_3A, line 211: all terms up to this one, renamed *)
Definition eomn_X3As15 (d : dims) (H : ints) (T R : amps) : mat6 := fun a b c i j k =>
  eomn_X3As14 d H T R a b c i j k + eomn_X3At15 d H T R c a b k i j.
(** the product placed differently *)
Definition eomn_X3Au (d : dims) (H : ints) (T R : amps) : mat6 := fun a b c i j k =>
  1 / 4 * (sumn (noa d) (fun m => sumn (nua d) (fun e => (i_a_ov H m e) * ((x_aa T a e i j) * (x_aa R b c k m))))).
(** all terms, that product moved *)
Definition eomn_X3Af (d : dims) (H : ints) (T R : amps) : mat6 := fun a b c i j k =>
  eomn_X3As15 d H T R a b c i j k + eomn_X3Au d H T R c a b j k i - eomn_X3Au d H T R a b c i j k.
(** ccpy/eomcc/eomccsdt.py, build_HR_3B, line 222: the term added there *)
Definition eomn_X3Bt0 (d : dims) (H : ints) (T R : amps) : mat6 := fun a b c i j k =>
  1 / 2 * (sumn (nua d) (fun e => (eomt_X_ab_vvvo_1 d H T R b c e k) * (x_aa T a e i j))).
(** ccpy/eomcc/eomccsdt.py, build_HR_3B, line 222: all terms up to this one, renamed *)
Definition eomn_X3Bs0 (d : dims) (H : ints) (T R : amps) : mat6 := fun a b c i j k =>
  eomn_X3Bt0 d H T R a b c i j k.
(** ccpy/eomcc/eomccsdt.py, build_HR_3B, line 223: the term added there *)
Definition eomn_X3Bt1 (d : dims) (H : ints) (T R : amps) : mat6 := fun a b c i j k =>
  1 / 2 * (sumn (nua d) (fun e => (i_ab_vvvo H b c e k) * (x_aa R a e i j))).
(** ccpy/eomcc/eomccsdt.py, build_HR_3B, line 223: all terms up to this one, renamed *)
Definition eomn_X3Bs1 (d : dims) (H : ints) (T R : amps) : mat6 := fun a b c i j k =>
  eomn_X3Bs0 d H T R a b c i j k + eomn_X3Bt1 d H T R a b c i j k.
(** ccpy/eomcc/eomccsdt.py, build_HR_3B, line 225: the term added there *)
Definition eomn_X3Bt2 (d : dims) (H : ints) (T R : amps) : mat6 := fun a b c i j k =>
  1 / 2 * (sumn (noa d) (fun n => (eomt_X_ab_ovoo_1 d H T R n c j k) * (x_aa T a b i n))).
(** ccpy/eomcc/eomccsdt.py, build_HR_3B, line 225: all terms up to this one, renamed *)
Definition eomn_X3Bs2 (d : dims) (H : ints) (T R : amps) : mat6 := fun a b c i j k =>
  eomn_X3Bs1 d H T R a b c i j k - eomn_X3Bt2 d H T R a b c i j k.
(** ccpy/eomcc/eomccsdt.py, build_HR_3B, line 226: the term added there *)
Definition eomn_X3Bt3 (d : dims) (H : ints) (T R : amps) : mat6 := fun a b c i j k =>
  1 / 2 * (sumn (noa d) (fun m => (i_ab_ovoo H m c j k) * (x_aa R a b i m))).
(** ccpy/eomcc/eomccsdt.py, build_HR_3B, line 226: all terms up to this one, renamed *)
Definition eomn_X3Bs3 (d : dims) (H : ints) (T R : amps) : mat6 := fun a b c i j k =>
  eomn_X3Bs2 d H T R a b c i j k - eomn_X3Bt3 d H T R a b c i j k.
(** ccpy/eomcc/eomccsdt.py, build_HR_3B, line 228: the term added there *)
Definition eomn_X3Bt4 (d : dims) (H : ints) (T R : amps) : mat6 := fun a b c i j k =>
  1 / 2 * (sumn (nua d) (fun e => (eomt_X_aa_vvov_2 d H T R b a j e) * (x_ab T e c i k))).
(** ccpy/eomcc/eomccsdt.py, build_HR_3B, line 228: all terms up to this one, renamed *)
Definition eomn_X3Bs4 (d : dims) (H : ints) (T R : amps) : mat6 := fun a b c i j k =>
  eomn_X3Bs3 d H T R a b c i j k + eomn_X3Bt4 d H T R b a c j i k.
(** ccpy/eomcc/eomccsdt.py, build_HR_3B, line 229: the term added there *)
Definition eomn_X3Bt5 (d : dims) (H : ints) (T R : amps) : mat6 := fun a b c i j k =>
  1 / 2 * (sumn (nua d) (fun e => (i_aa_vvov H b a j e) * (x_ab R e c i k))).
(** ccpy/eomcc/eomccsdt.py, build_HR_3B, line 229: all terms up to this one, renamed *)
Definition eomn_X3Bs5 (d : dims) (H : ints) (T R : amps) : mat6 := fun a b c i j k =>
  eomn_X3Bs4 d H T R a b c i j k + eomn_X3Bt5 d H T R b a c j i k.
(** ccpy/eomcc/eomccsdt.py, build_HR_3B, line 231: the term added there *)
Definition eomn_X3Bt6 (d : dims) (H : ints) (T R : amps) : mat6 := fun a b c i j k =>
  1 / 2 * (sumn (noa d) (fun n => (eomt_X_aa_vooo_2 d H T R b n j i) * (x_ab T a c n k))).
(** ccpy/eomcc/eomccsdt.py, build_HR_3B, line 231: all terms up to this one, renamed *)
Definition eomn_X3Bs6 (d : dims) (H : ints) (T R : amps) : mat6 := fun a b c i j k =>
  eomn_X3Bs5 d H T R a b c i j k - eomn_X3Bt6 d H T R b a c j i k.
(** ccpy/eomcc/eomccsdt.py, build_HR_3B, line 232: the term added there *)
Definition eomn_X3Bt7 (d : dims) (H : ints) (T R : amps) : mat6 := fun a b c i j k =>
  1 / 2 * (sumn (noa d) (fun n => (i_aa_vooo H b n j i) * (x_ab R a c n k))).
(** ccpy/eomcc/eomccsdt.py, build_HR_3B, line 232: all terms up to this one, renamed *)
Definition eomn_X3Bs7 (d : dims) (H : ints) (T R : amps) : mat6 := fun a b c i j k =>
  eomn_X3Bs6 d H T R a b c i j k - eomn_X3Bt7 d H T R b a c j i k.
(** ccpy/eomcc/eomccsdt.py, build_HR_3B, line 234: the term added there *)
Definition eomn_X3Bt8 (d : dims) (H : ints) (T R : amps) : mat6 := fun a b c i j k =>
  sumn (nub d) (fun e => (eomt_X_ab_vvov_1 d H T R b c j e) * (x_ab T a e i k)).
(** ccpy/eomcc/eomccsdt.py, build_HR_3B, line 234: all terms up to this one, renamed *)
Definition eomn_X3Bs8 (d : dims) (H : ints) (T R : amps) : mat6 := fun a b c i j k =>
  eomn_X3Bs7 d H T R a b c i j k + eomn_X3Bt8 d H T R b a c j i k.
(** ccpy/eomcc/eomccsdt.py, build_HR_3B, line 235: the term added there *)
Definition eomn_X3Bt9 (d : dims) (H : ints) (T R : amps) : mat6 := fun a b c i j k =>
  sumn (nub d) (fun e => (i_ab_vvov H b c j e) * (x_ab R a e i k)).
(** ccpy/eomcc/eomccsdt.py, build_HR_3B, line 235: all terms up to this one, renamed *)
Definition eomn_X3Bs9 (d : dims) (H : ints) (T R : amps) : mat6 := fun a b c i j k =>
  eomn_X3Bs8 d H T R a b c i j k + eomn_X3Bt9 d H T R b a c j i k.
(** ccpy/eomcc/eomccsdt.py, build_HR_3B, line 237: the term added there *)
Definition eomn_X3Bt10 (d : dims) (H : ints) (T R : amps) : mat6 := fun a b c i j k =>
  sumn (nob d) (fun n => (eomt_X_ab_vooo_1 d H T R b n j k) * (x_ab T a c i n)).
(** ccpy/eomcc/eomccsdt.py, build_HR_3B, line 237: all terms up to this one, renamed *)
Definition eomn_X3Bs10 (d : dims) (H : ints) (T R : amps) : mat6 := fun a b c i j k =>
  eomn_X3Bs9 d H T R a b c i j k - eomn_X3Bt10 d H T R b a c j i k.
(** ccpy/eomcc/eomccsdt.py, build_HR_3B, line 238: the term added there *)
Definition eomn_X3Bt11 (d : dims) (H : ints) (T R : amps) : mat6 := fun a b c i j k =>
  sumn (nob d) (fun n => (i_ab_vooo H b n j k) * (x_ab R a c i n)).
(** ccpy/eomcc/eomccsdt.py, build_HR_3B, line 238: all terms up to this one, renamed *)
Definition eomn_X3Bs11 (d : dims) (H : ints) (T R : amps) : mat6 := fun a b c i j k =>
  eomn_X3Bs10 d H T R a b c i j k - eomn_X3Bt11 d H T R b a c j i k.
(** ccpy/eomcc/eomccsdt.py, build_HR_3B, line 241: the term added there *)
Definition eomn_X3Bt12 (d : dims) (H : ints) (T R : amps) : mat6 := fun a b c i j k =>
  1 / 2 * (sumn (nua d) (fun e => (eomt_X_a_vv_1 d H T R b e) * (x_aab T a e c i j k))).
(** ccpy/eomcc/eomccsdt.py, build_HR_3B, line 241: all terms up to this one, renamed *)
Definition eomn_X3Bs12 (d : dims) (H : ints) (T R : amps) : mat6 := fun a b c i j k =>
  eomn_X3Bs11 d H T R a b c i j k - eomn_X3Bt12 d H T R b a c i j k.
(** ccpy/eomcc/eomccsdt.py, build_HR_3B, line 242: the term added there *)
Definition eomn_X3Bt13 (d : dims) (H : ints) (T R : amps) : mat6 := fun a b c i j k =>
  1 / 4 * (sumn (nub d) (fun e => (eomt_X_b_vv_1 d H T R c e) * (x_aab T a b e i j k))).
(** ccpy/eomcc/eomccsdt.py, build_HR_3B, line 242: all terms up to this one, renamed *)
Definition eomn_X3Bs13 (d : dims) (H : ints) (T R : amps) : mat6 := fun a b c i j k =>
  eomn_X3Bs12 d H T R a b c i j k + eomn_X3Bt13 d H T R a b c i j k.
(** ccpy/eomcc/eomccsdt.py, build_HR_3B, line 243: the term added there *)
Definition eomn_X3Bt14 (d : dims) (H : ints) (T R : amps) : mat6 := fun a b c i j k =>
  1 / 2 * (sumn (noa d) (fun m => (eomt_X_a_oo_1 d H T R m j) * (x_aab T a b c i m k))).
(** ccpy/eomcc/eomccsdt.py, build_HR_3B, line 243: all terms up to this one, renamed *)
Definition eomn_X3Bs14 (d : dims) (H : ints) (T R : amps) : mat6 := fun a b c i j k =>
  eomn_X3Bs13 d H T R a b c i j k + eomn_X3Bt14 d H T R a b c j i k.
(** ccpy/eomcc/eomccsdt.py, build_HR_3B, line 244: the term added there *)
Definition eomn_X3Bt15 (d : dims) (H : ints) (T R : amps) : mat6 := fun a b c i j k =>
  1 / 4 * (sumn (nob d) (fun m => (eomt_X_b_oo_1 d H T R m k) * (x_aab T a b c i j m))).
(** ccpy/eomcc/eomccsdt.py, build_HR_3B, line 244: all terms up to this one, renamed *)
Definition eomn_X3Bs15 (d : dims) (H : ints) (T R : amps) : mat6 := fun a b c i j k =>
  eomn_X3Bs14 d H T R a b c i j k - eomn_X3Bt15 d H T R a b c i j k.
(** ccpy/eomcc/eomccsdt.py, build_HR_3B, line 245: the term added there *)
Definition eomn_X3Bt16 (d : dims) (H : ints) (T R : amps) : mat6 := fun a b c i j k =>
  1 / 2 * (sumn (noa d) (fun n => sumn (nob d) (fun m => (eomt_X_ab_oooo d H T R n m j k) * (x_aab T a b c i n m)))).
(** ccpy/eomcc/eomccsdt.py, build_HR_3B, line 245: all terms up to this one, renamed *)
Definition eomn_X3Bs16 (d : dims) (H : ints) (T R : amps) : mat6 := fun a b c i j k =>
  eomn_X3Bs15 d H T R a b c i j k + eomn_X3Bt16 d H T R a b c i j k.
(** ccpy/eomcc/eomccsdt.py, build_HR_3B, line 246: the term added there *)
Definition eomn_X3Bt17 (d : dims) (H : ints) (T R : amps) : mat6 := fun a b c i j k =>
  1 / 8 * (sumn (noa d) (fun m => sumn (noa d) (fun n => (eomt_X_aa_oooo_1 d H T R m n i j) * (x_aab T a b c m n k)))).
(** ccpy/eomcc/eomccsdt.py, build_HR_3B, line 246: all terms up to this one, renamed *)
Definition eomn_X3Bs17 (d : dims) (H : ints) (T R : amps) : mat6 := fun a b c i j k =>
  eomn_X3Bs16 d H T R a b c i j k + eomn_X3Bt17 d H T R a b c i j k.
(** ccpy/eomcc/eomccsdt.py, build_HR_3B, line 247: the term added there *)
Definition eomn_X3Bt18 (d : dims) (H : ints) (T R : amps) : mat6 := fun a b c i j k =>
  1 / 2 * (sumn (nua d) (fun f => sumn (nub d) (fun e => (eomt_X_ab_vvvv d H T R b c f e) * (x_aab T a f e i j k)))).
(** ccpy/eomcc/eomccsdt.py, build_HR_3B, line 247: all terms up to this one, renamed *)
Definition eomn_X3Bs18 (d : dims) (H : ints) (T R : amps) : mat6 := fun a b c i j k =>
  eomn_X3Bs17 d H T R a b c i j k + eomn_X3Bt18 d H T R a b c i j k.
(** ccpy/eomcc/eomccsdt.py, build_HR_3B, line 248: the term added there *)
Definition eomn_X3Bt19 (d : dims) (H : ints) (T R : amps) : mat6 := fun a b c i j k =>
  1 / 8 * (sumn (nua d) (fun e => sumn (nua d) (fun f => (eomt_X_aa_vvvv_1 d H T R a b e f) * (x_aab T e f c i j k)))).
(** ccpy/eomcc/eomccsdt.py, build_HR_3B, line 248: all terms up to this one, renamed *)
Definition eomn_X3Bs19 (d : dims) (H : ints) (T R : amps) : mat6 := fun a b c i j k =>
  eomn_X3Bs18 d H T R a b c i j k + eomn_X3Bt19 d H T R a b c i j k.
(** ccpy/eomcc/eomccsdt.py, build_HR_3B, line 249: the term added there *)
Definition eomn_X3Bt20 (d : dims) (H : ints) (T R : amps) : mat6 := fun a b c i j k =>
  1 / 4 * (sumn (noa d) (fun n => sumn (nua d) (fun f => (eomt_X_ab_ovvo d H T R n c f k) * (x_aaa T a b f i j n)))).
(** ccpy/eomcc/eomccsdt.py, build_HR_3B, line 249: all terms up to this one, renamed *)
Definition eomn_X3Bs20 (d : dims) (H : ints) (T R : amps) : mat6 := fun a b c i j k =>
  eomn_X3Bs19 d H T R a b c i j k + eomn_X3Bt20 d H T R a b c i j k.
(** ccpy/eomcc/eomccsdt.py, build_HR_3B, line 250: the term added there *)
Definition eomn_X3Bt21 (d : dims) (H : ints) (T R : amps) : mat6 := fun a b c i j k =>
  1 / 4 * (sumn (nob d) (fun n => sumn (nub d) (fun f => (eomt_X_bb_voov d H T R c n k f) * (x_aab T a b f i j n)))).
(** ccpy/eomcc/eomccsdt.py, build_HR_3B, line 250: all terms up to this one, renamed *)
Definition eomn_X3Bs21 (d : dims) (H : ints) (T R : amps) : mat6 := fun a b c i j k =>
  eomn_X3Bs20 d H T R a b c i j k + eomn_X3Bt21 d H T R a b c i j k.
(** ccpy/eomcc/eomccsdt.py, build_HR_3B, line 251: the term added there *)
Definition eomn_X3Bt22 (d : dims) (H : ints) (T R : amps) : mat6 := fun a b c i j k =>
  1 / 2 * (sumn (nob d) (fun m => sumn (nua d) (fun f => (eomt_X_ab_vovo d H T R b m f k) * (x_aab T a f c i j m)))).
(** ccpy/eomcc/eomccsdt.py, build_HR_3B, line 251: all terms up to this one, renamed *)
Definition eomn_X3Bs22 (d : dims) (H : ints) (T R : amps) : mat6 := fun a b c i j k =>
  eomn_X3Bs21 d H T R a b c i j k + eomn_X3Bt22 d H T R b a c i j k.
(** ccpy/eomcc/eomccsdt.py, build_HR_3B, line 252: the term added there *)
Definition eomn_X3Bt23 (d : dims) (H : ints) (T R : amps) : mat6 := fun a b c i j k =>
  1 / 2 * (sumn (noa d) (fun n => sumn (nub d) (fun e => (eomt_X_ab_ovov d H T R n c j e) * (x_aab T a b e i n k)))).
(** ccpy/eomcc/eomccsdt.py, build_HR_3B, line 252: all terms up to this one, renamed *)
Definition eomn_X3Bs23 (d : dims) (H : ints) (T R : amps) : mat6 := fun a b c i j k =>
  eomn_X3Bs22 d H T R a b c i j k + eomn_X3Bt23 d H T R a b c j i k.
(** ccpy/eomcc/eomccsdt.py, build_HR_3B, line 253: the term added there *)
Definition eomn_X3Bt24 (d : dims) (H : ints) (T R : amps) : mat6 := fun a b c i j k =>
  sumn (noa d) (fun m => sumn (nua d) (fun e => (eomt_X_aa_voov d H T R b m j e) * (x_aab T a e c i m k))).
(** ccpy/eomcc/eomccsdt.py, build_HR_3B, line 253: all terms up to this one, renamed *)
Definition eomn_X3Bs24 (d : dims) (H : ints) (T R : amps) : mat6 := fun a b c i j k =>
  eomn_X3Bs23 d H T R a b c i j k + eomn_X3Bt24 d H T R b a c j i k.
(** ccpy/eomcc/eomccsdt.py, build_HR_3B, line 254: the term added there *)
Definition eomn_X3Bt25 (d : dims) (H : ints) (T R : amps) : mat6 := fun a b c i j k =>
  sumn (nob d) (fun m => sumn (nub d) (fun e => (eomt_X_ab_voov d H T R b m j e) * (x_abb T a e c i m k))).
(** ccpy/eomcc/eomccsdt.py, build_HR_3B, line 254: all terms up to this one, renamed *)
Definition eomn_X3Bs25 (d : dims) (H : ints) (T R : amps) : mat6 := fun a b c i j k =>
  eomn_X3Bs24 d H T R a b c i j k + eomn_X3Bt25 d H T R b a c j i k.
(** ccpy/eomcc/eomccsdt.py, build_HR_3B, line 256: the term added there *)
Definition eomn_X3Bt26 (d : dims) (H : ints) (T R : amps) : mat6 := fun a b c i j k =>
  1 / 2 * (sumn (noa d) (fun m => (i_a_oo H m j) * (x_aab R a b c i m k))).
(** ccpy/eomcc/eomccsdt.py, build_HR_3B, line 256: all terms up to this one, renamed *)
Definition eomn_X3Bs26 (d : dims) (H : ints) (T R : amps) : mat6 := fun a b c i j k =>
  eomn_X3Bs25 d H T R a b c i j k + eomn_X3Bt26 d H T R a b c j i k.
(** ccpy/eomcc/eomccsdt.py, build_HR_3B, line 257: the term added there *)
Definition eomn_X3Bt27 (d : dims) (H : ints) (T R : amps) : mat6 := fun a b c i j k =>
  1 / 4 * (sumn (nob d) (fun m => (i_b_oo H m k) * (x_aab R a b c i j m))).
(** ccpy/eomcc/eomccsdt.py, build_HR_3B, line 257: all terms up to this one, renamed *)
Definition eomn_X3Bs27 (d : dims) (H : ints) (T R : amps) : mat6 := fun a b c i j k =>
  eomn_X3Bs26 d H T R a b c i j k - eomn_X3Bt27 d H T R a b c i j k.
(** ccpy/eomcc/eomccsdt.py, build_HR_3B, line 258: the term added there *)
Definition eomn_X3Bt28 (d : dims) (H : ints) (T R : amps) : mat6 := fun a b c i j k =>
  1 / 2 * (sumn (nua d) (fun e => (i_a_vv H b e) * (x_aab R a e c i j k))).
(** ccpy/eomcc/eomccsdt.py, build_HR_3B, line 258: all terms up to this one, renamed *)
Definition eomn_X3Bs28 (d : dims) (H : ints) (T R : amps) : mat6 := fun a b c i j k =>
  eomn_X3Bs27 d H T R a b c i j k - eomn_X3Bt28 d H T R b a c i j k.
(** ccpy/eomcc/eomccsdt.py, build_HR_3B, line 259: the term added there *)
Definition eomn_X3Bt29 (d : dims) (H : ints) (T R : amps) : mat6 := fun a b c i j k =>
  1 / 4 * (sumn (nub d) (fun e => (i_b_vv H c e) * (x_aab R a b e i j k))).
(** ccpy/eomcc/eomccsdt.py, build_HR_3B, line 259: all terms up to this one, renamed *)
Definition eomn_X3Bs29 (d : dims) (H : ints) (T R : amps) : mat6 := fun a b c i j k =>
  eomn_X3Bs28 d H T R a b c i j k + eomn_X3Bt29 d H T R a b c i j k.
(** ccpy/eomcc/eomccsdt.py, build_HR_3B, line 260: the term added there *)
Definition eomn_X3Bt30 (d : dims) (H : ints) (T R : amps) : mat6 := fun a b c i j k =>
  1 / 8 * (sumn (noa d) (fun m => sumn (noa d) (fun n => (i_aa_oooo H m n i j) * (x_aab R a b c m n k)))).
(** ccpy/eomcc/eomccsdt.py, build_HR_3B, line 260: all terms up to this one, renamed *)
Definition eomn_X3Bs30 (d : dims) (H : ints) (T R : amps) : mat6 := fun a b c i j k =>
  eomn_X3Bs29 d H T R a b c i j k + eomn_X3Bt30 d H T R a b c i j k.
(** ccpy/eomcc/eomccsdt.py, build_HR_3B, line 261: the term added there *)
Definition eomn_X3Bt31 (d : dims) (H : ints) (T R : amps) : mat6 := fun a b c i j k =>
  1 / 2 * (sumn (noa d) (fun m => sumn (nob d) (fun n => (i_ab_oooo H m n j k) * (x_aab R a b c i m n)))).
(** ccpy/eomcc/eomccsdt.py, build_HR_3B, line 261: all terms up to this one, renamed *)
Definition eomn_X3Bs31 (d : dims) (H : ints) (T R : amps) : mat6 := fun a b c i j k =>
  eomn_X3Bs30 d H T R a b c i j k + eomn_X3Bt31 d H T R a b c i j k.
(** ccpy/eomcc/eomccsdt.py, build_HR_3B, line 262: the term added there *)
Definition eomn_X3Bt32 (d : dims) (H : ints) (T R : amps) : mat6 := fun a b c i j k =>
  1 / 8 * (sumn (nua d) (fun e => sumn (nua d) (fun f => (i_aa_vvvv H a b e f) * (x_aab R e f c i j k)))).
(** ccpy/eomcc/eomccsdt.py, build_HR_3B, line 262: all terms up to this one, renamed *)
Definition eomn_X3Bs32 (d : dims) (H : ints) (T R : amps) : mat6 := fun a b c i j k =>
  eomn_X3Bs31 d H T R a b c i j k + eomn_X3Bt32 d H T R a b c i j k.
(** ccpy/eomcc/eomccsdt.py, build_HR_3B, line 263: the term added there *)
Definition eomn_X3Bt33 (d : dims) (H : ints) (T R : amps) : mat6 := fun a b c i j k =>
  1 / 2 * (sumn (nua d) (fun e => sumn (nub d) (fun f => (i_ab_vvvv H b c e f) * (x_aab R a e f i j k)))).
(** ccpy/eomcc/eomccsdt.py, build_HR_3B, line 263: all terms up to this one, renamed *)
Definition eomn_X3Bs33 (d : dims) (H : ints) (T R : amps) : mat6 := fun a b c i j k =>
  eomn_X3Bs32 d H T R a b c i j k + eomn_X3Bt33 d H T R a b c i j k.
(** ccpy/eomcc/eomccsdt.py, build_HR_3B, line 264: the term added there *)
Definition eomn_X3Bt34 (d : dims) (H : ints) (T R : amps) : mat6 := fun a b c i j k =>
  sumn (noa d) (fun m => sumn (nua d) (fun e => (i_aa_voov H a m i e) * (x_aab R e b c m j k))).
(** ccpy/eomcc/eomccsdt.py, build_HR_3B, line 264: all terms up to this one, renamed *)
Definition eomn_X3Bs34 (d : dims) (H : ints) (T R : amps) : mat6 := fun a b c i j k =>
  eomn_X3Bs33 d H T R a b c i j k + eomn_X3Bt34 d H T R a b c i j k.
(** ccpy/eomcc/eomccsdt.py, build_HR_3B, line 265: the term added there *)
Definition eomn_X3Bt35 (d : dims) (H : ints) (T R : amps) : mat6 := fun a b c i j k =>
  sumn (nob d) (fun m => sumn (nub d) (fun e => (i_ab_voov H a m i e) * (x_abb R b e c j m k))).
(** ccpy/eomcc/eomccsdt.py, build_HR_3B, line 265: all terms up to this one, renamed *)
Definition eomn_X3Bs35 (d : dims) (H : ints) (T R : amps) : mat6 := fun a b c i j k =>
  eomn_X3Bs34 d H T R a b c i j k + eomn_X3Bt35 d H T R a b c i j k.
(** ccpy/eomcc/eomccsdt.py, build_HR_3B, line 266: the term added there *)
Definition eomn_X3Bt36 (d : dims) (H : ints) (T R : amps) : mat6 := fun a b c i j k =>
  1 / 4 * (sumn (noa d) (fun m => sumn (nua d) (fun e => (i_ab_ovvo H m c e k) * (x_aaa R a b e i j m)))).
(** ccpy/eomcc/eomccsdt.py, build_HR_3B, line 266: all terms up to this one, renamed *)
Definition eomn_X3Bs36 (d : dims) (H : ints) (T R : amps) : mat6 := fun a b c i j k =>
  eomn_X3Bs35 d H T R a b c i j k + eomn_X3Bt36 d H T R a b c i j k.
(** ccpy/eomcc/eomccsdt.py, build_HR_3B, line 267: the term added there *)
Definition eomn_X3Bt37 (d : dims) (H : ints) (T R : amps) : mat6 := fun a b c i j k =>
  1 / 4 * (sumn (nob d) (fun m => sumn (nub d) (fun e => (i_bb_voov H c m k e) * (x_aab R a b e i j m)))).
(** ccpy/eomcc/eomccsdt.py, build_HR_3B, line 267: all terms up to this one, renamed *)
Definition eomn_X3Bs37 (d : dims) (H : ints) (T R : amps) : mat6 := fun a b c i j k =>
  eomn_X3Bs36 d H T R a b c i j k + eomn_X3Bt37 d H T R a b c i j k.
(** ccpy/eomcc/eomccsdt.py, build_HR_3B, line 268: the term added there *)
Definition eomn_X3Bt38 (d : dims) (H : ints) (T R : amps) : mat6 := fun a b c i j k =>
  1 / 2 * (sumn (nob d) (fun m => sumn (nua d) (fun e => (i_ab_vovo H b m e k) * (x_aab R a e c i j m)))).
(** ccpy/eomcc/eomccsdt.py, build_HR_3B, line 268: all terms up to this one, renamed *)
Definition eomn_X3Bs38 (d : dims) (H : ints) (T R : amps) : mat6 := fun a b c i j k =>
  eomn_X3Bs37 d H T R a b c i j k + eomn_X3Bt38 d H T R b a c i j k.
(** ccpy/eomcc/eomccsdt.py, build_HR_3B, line 269: the term added there *)
Definition eomn_X3Bt39 (d : dims) (H : ints) (T R : amps) : mat6 := fun a b c i j k =>
  1 / 2 * (sumn (noa d) (fun m => sumn (nub d) (fun e => (i_ab_ovov H m c j e) * (x_aab R a b e i m k)))).
(** ccpy/eomcc/eomccsdt.py, build_HR_3B, line 269: all terms up to this one, renamed *)
Definition eomn_X3Bs39 (d : dims) (H : ints) (T R : amps) : mat6 := fun a b c i j k =>
  eomn_X3Bs38 d H T R a b c i j k + eomn_X3Bt39 d H T R a b c j i k.
(** the product placed differently *)
Definition eomn_X3Bu (d : dims) (H : ints) (T R : amps) : mat6 := fun a b c i j k =>
  sumn (nob d) (fun m => sumn (nub d) (fun e => (i_b_ov H m e) * ((x_ab T a e i k) * (x_ab R b c j m)))).
(** all terms, that product moved *)
Definition eomn_X3Bf (d : dims) (H : ints) (T R : amps) : mat6 := fun a b c i j k =>
  eomn_X3Bs39 d H T R a b c i j k + eomn_X3Bu d H T R a b c i j k - eomn_X3Bu d H T R b a c j i k.
(** ccpy/eomcc/eomccsdt.py, build_HR_3C, line 277: the term added there *)
Definition eomn_X3Ct0 (d : dims) (H : ints) (T R : amps) : mat6 := fun a b c i j k =>
  1 / 2 * (sumn (nub d) (fun e => (eomt_X_ab_vvov_1 d H T R a b i e) * (x_bb T c e k j))).
(** ccpy/eomcc/eomccsdt.py, build_HR_3C, line 277: all terms up to this one, renamed *)
Definition eomn_X3Cs0 (d : dims) (H : ints) (T R : amps) : mat6 := fun a b c i j k =>
  eomn_X3Ct0 d H T R a b c i j k.
(** ccpy/eomcc/eomccsdt.py, build_HR_3C, line 278: the term added there *)
Definition eomn_X3Ct1 (d : dims) (H : ints) (T R : amps) : mat6 := fun a b c i j k =>
  1 / 2 * (sumn (nub d) (fun e => (i_ab_vvov H a b i e) * (x_bb R c e k j))).
(** ccpy/eomcc/eomccsdt.py, build_HR_3C, line 278: all terms up to this one, renamed *)
Definition eomn_X3Cs1 (d : dims) (H : ints) (T R : amps) : mat6 := fun a b c i j k =>
  eomn_X3Cs0 d H T R a b c i j k + eomn_X3Ct1 d H T R a b c i j k.
(** ccpy/eomcc/eomccsdt.py, build_HR_3C, line 280: the term added there *)
Definition eomn_X3Ct2 (d : dims) (H : ints) (T R : amps) : mat6 := fun a b c i j k =>
  1 / 2 * (sumn (nob d) (fun n => (eomt_X_ab_vooo_1 d H T R a n i j) * (x_bb T c b k n))).
(** ccpy/eomcc/eomccsdt.py, build_HR_3C, line 280: all terms up to this one, renamed *)
Definition eomn_X3Cs2 (d : dims) (H : ints) (T R : amps) : mat6 := fun a b c i j k =>
  eomn_X3Cs1 d H T R a b c i j k - eomn_X3Ct2 d H T R a b c i j k.
(** ccpy/eomcc/eomccsdt.py, build_HR_3C, line 281: the term added there *)
Definition eomn_X3Ct3 (d : dims) (H : ints) (T R : amps) : mat6 := fun a b c i j k =>
  1 / 2 * (sumn (nob d) (fun m => (i_ab_vooo H a m i j) * (x_bb R c b k m))).
(** ccpy/eomcc/eomccsdt.py, build_HR_3C, line 281: all terms up to this one, renamed *)
Definition eomn_X3Cs3 (d : dims) (H : ints) (T R : amps) : mat6 := fun a b c i j k =>
  eomn_X3Cs2 d H T R a b c i j k - eomn_X3Ct3 d H T R a b c i j k.
(** ccpy/eomcc/eomccsdt.py, build_HR_3C, line 283: the term added there *)
Definition eomn_X3Ct4 (d : dims) (H : ints) (T R : amps) : mat6 := fun a b c i j k =>
  1 / 2 * (sumn (nub d) (fun e => (eomt_X_bb_vvov_2 d H T R b c j e) * (x_ab T a e i k))).
(** ccpy/eomcc/eomccsdt.py, build_HR_3C, line 283: all terms up to this one, renamed *)
Definition eomn_X3Cs4 (d : dims) (H : ints) (T R : amps) : mat6 := fun a b c i j k =>
  eomn_X3Cs3 d H T R a b c i j k + eomn_X3Ct4 d H T R a c b i k j.
(** ccpy/eomcc/eomccsdt.py, build_HR_3C, line 284: the term added there *)
Definition eomn_X3Ct5 (d : dims) (H : ints) (T R : amps) : mat6 := fun a b c i j k =>
  1 / 2 * (sumn (nub d) (fun e => (i_bb_vvov H b c j e) * (x_ab R a e i k))).
(** ccpy/eomcc/eomccsdt.py, build_HR_3C, line 284: all terms up to this one, renamed *)
Definition eomn_X3Cs5 (d : dims) (H : ints) (T R : amps) : mat6 := fun a b c i j k =>
  eomn_X3Cs4 d H T R a b c i j k + eomn_X3Ct5 d H T R a c b i k j.
(** ccpy/eomcc/eomccsdt.py, build_HR_3C, line 286: the term added there *)
Definition eomn_X3Ct6 (d : dims) (H : ints) (T R : amps) : mat6 := fun a b c i j k =>
  1 / 2 * (sumn (nob d) (fun n => (eomt_X_bb_vooo_2 d H T R b n j k) * (x_ab T a c i n))).
(** ccpy/eomcc/eomccsdt.py, build_HR_3C, line 286: all terms up to this one, renamed *)
Definition eomn_X3Cs6 (d : dims) (H : ints) (T R : amps) : mat6 := fun a b c i j k =>
  eomn_X3Cs5 d H T R a b c i j k - eomn_X3Ct6 d H T R a c b i k j.
(** ccpy/eomcc/eomccsdt.py, build_HR_3C, line 287: the term added there *)
Definition eomn_X3Ct7 (d : dims) (H : ints) (T R : amps) : mat6 := fun a b c i j k =>
  1 / 2 * (sumn (nob d) (fun n => (i_bb_vooo H b n j k) * (x_ab R a c i n))).
(** ccpy/eomcc/eomccsdt.py, build_HR_3C, line 287: all terms up to this one, renamed *)
Definition eomn_X3Cs7 (d : dims) (H : ints) (T R : amps) : mat6 := fun a b c i j k =>
  eomn_X3Cs6 d H T R a b c i j k - eomn_X3Ct7 d H T R a c b i k j.
(** ccpy/eomcc/eomccsdt.py, build_HR_3C, line 289: the term added there *)
Definition eomn_X3Ct8 (d : dims) (H : ints) (T R : amps) : mat6 := fun a b c i j k =>
  sumn (nua d) (fun e => (eomt_X_ab_vvvo_1 d H T R a b e j) * (x_ab T e c i k)).
(** ccpy/eomcc/eomccsdt.py, build_HR_3C, line 289: all terms up to this one, renamed *)
Definition eomn_X3Cs8 (d : dims) (H : ints) (T R : amps) : mat6 := fun a b c i j k =>
  eomn_X3Cs7 d H T R a b c i j k + eomn_X3Ct8 d H T R a b c i j k.
(** ccpy/eomcc/eomccsdt.py, build_HR_3C, line 290: the term added there *)
Definition eomn_X3Ct9 (d : dims) (H : ints) (T R : amps) : mat6 := fun a b c i j k =>
  sumn (nua d) (fun e => (i_ab_vvvo H a b e j) * (x_ab R e c i k)).
(** ccpy/eomcc/eomccsdt.py, build_HR_3C, line 290: all terms up to this one, renamed *)
Definition eomn_X3Cs9 (d : dims) (H : ints) (T R : amps) : mat6 := fun a b c i j k =>
  eomn_X3Cs8 d H T R a b c i j k + eomn_X3Ct9 d H T R a b c i j k.
(** ccpy/eomcc/eomccsdt.py, build_HR_3C, line 292: the term added there *)
Definition eomn_X3Ct10 (d : dims) (H : ints) (T R : amps) : mat6 := fun a b c i j k =>
  sumn (noa d) (fun n => (eomt_X_ab_ovoo_1 d H T R n b i j) * (x_ab T a c n k)).
(** ccpy/eomcc/eomccsdt.py, build_HR_3C, line 292: all terms up to this one, renamed *)
Definition eomn_X3Cs10 (d : dims) (H : ints) (T R : amps) : mat6 := fun a b c i j k =>
  eomn_X3Cs9 d H T R a b c i j k - eomn_X3Ct10 d H T R a b c i j k.
(** ccpy/eomcc/eomccsdt.py, build_HR_3C, line 293: the term added there *)
Definition eomn_X3Ct11 (d : dims) (H : ints) (T R : amps) : mat6 := fun a b c i j k =>
  sumn (noa d) (fun n => (i_ab_ovoo H n b i j) * (x_ab R a c n k)).
(** ccpy/eomcc/eomccsdt.py, build_HR_3C, line 293: all terms up to this one, renamed *)
Definition eomn_X3Cs11 (d : dims) (H : ints) (T R : amps) : mat6 := fun a b c i j k =>
  eomn_X3Cs10 d H T R a b c i j k - eomn_X3Ct11 d H T R a b c i j k.
(** ccpy/eomcc/eomccsdt.py, build_HR_3C, line 295: the term added there *)
Definition eomn_X3Ct12 (d : dims) (H : ints) (T R : amps) : mat6 := fun a b c i j k =>
  1 / 2 * (sumn (nub d) (fun e => (eomt_X_b_vv_1 d H T R b e) * (x_abb T a e c i j k))).
(** ccpy/eomcc/eomccsdt.py, build_HR_3C, line 295: all terms up to this one, renamed *)
Definition eomn_X3Cs12 (d : dims) (H : ints) (T R : amps) : mat6 := fun a b c i j k =>
  eomn_X3Cs11 d H T R a b c i j k + eomn_X3Ct12 d H T R a b c i j k.
(** ccpy/eomcc/eomccsdt.py, build_HR_3C, line 296: the term added there *)
Definition eomn_X3Ct13 (d : dims) (H : ints) (T R : amps) : mat6 := fun a b c i j k =>
  1 / 4 * (sumn (nua d) (fun e => (eomt_X_a_vv_1 d H T R a e) * (x_abb T e b c i j k))).
(** ccpy/eomcc/eomccsdt.py, build_HR_3C, line 296: all terms up to this one, renamed *)
Definition eomn_X3Cs13 (d : dims) (H : ints) (T R : amps) : mat6 := fun a b c i j k =>
  eomn_X3Cs12 d H T R a b c i j k + eomn_X3Ct13 d H T R a b c i j k.
(** ccpy/eomcc/eomccsdt.py, build_HR_3C, line 297: the term added there *)
Definition eomn_X3Ct14 (d : dims) (H : ints) (T R : amps) : mat6 := fun a b c i j k =>
  1 / 2 * (sumn (nob d) (fun m => (eomt_X_b_oo_1 d H T R m j) * (x_abb T a b c i m k))).
(** ccpy/eomcc/eomccsdt.py, build_HR_3C, line 297: all terms up to this one, renamed *)
Definition eomn_X3Cs14 (d : dims) (H : ints) (T R : amps) : mat6 := fun a b c i j k =>
  eomn_X3Cs13 d H T R a b c i j k - eomn_X3Ct14 d H T R a b c i j k.
(** ccpy/eomcc/eomccsdt.py, build_HR_3C, line 298: the term added there *)
Definition eomn_X3Ct15 (d : dims) (H : ints) (T R : amps) : mat6 := fun a b c i j k =>
  1 / 4 * (sumn (noa d) (fun m => (eomt_X_a_oo_1 d H T R m i) * (x_abb T a b c m j k))).
(** ccpy/eomcc/eomccsdt.py, build_HR_3C, line 298: all terms up to this one, renamed *)
Definition eomn_X3Cs15 (d : dims) (H : ints) (T R : amps) : mat6 := fun a b c i j k =>
  eomn_X3Cs14 d H T R a b c i j k - eomn_X3Ct15 d H T R a b c i j k.
(** ccpy/eomcc/eomccsdt.py, build_HR_3C, line 299: the term added there *)
Definition eomn_X3Ct16 (d : dims) (H : ints) (T R : amps) : mat6 := fun a b c i j k =>
  1 / 2 * (sumn (noa d) (fun m => sumn (nob d) (fun n => (eomt_X_ab_oooo d H T R m n i j) * (x_abb T a b c m n k)))).
(** ccpy/eomcc/eomccsdt.py, build_HR_3C, line 299: all terms up to this one, renamed *)
Definition eomn_X3Cs16 (d : dims) (H : ints) (T R : amps) : mat6 := fun a b c i j k =>
  eomn_X3Cs15 d H T R a b c i j k + eomn_X3Ct16 d H T R a b c i j k.
(** ccpy/eomcc/eomccsdt.py, build_HR_3C, line 300: the term added there *)
Definition eomn_X3Ct17 (d : dims) (H : ints) (T R : amps) : mat6 := fun a b c i j k =>
  1 / 8 * (sumn (nob d) (fun m => sumn (nob d) (fun n => (eomt_X_bb_oooo_1 d H T R m n k j) * (x_abb T a b c i n m)))).
(** ccpy/eomcc/eomccsdt.py, build_HR_3C, line 300: all terms up to this one, renamed *)
Definition eomn_X3Cs17 (d : dims) (H : ints) (T R : amps) : mat6 := fun a b c i j k =>
  eomn_X3Cs16 d H T R a b c i j k - eomn_X3Ct17 d H T R a b c i k j.
(** ccpy/eomcc/eomccsdt.py, build_HR_3C, line 301: the term added there *)
Definition eomn_X3Ct18 (d : dims) (H : ints) (T R : amps) : mat6 := fun a b c i j k =>
  1 / 2 * (sumn (nua d) (fun e => sumn (nub d) (fun f => (eomt_X_ab_vvvv d H T R a b e f) * (x_abb T e f c i j k)))).
(** ccpy/eomcc/eomccsdt.py, build_HR_3C, line 301: all terms up to this one, renamed *)
Definition eomn_X3Cs18 (d : dims) (H : ints) (T R : amps) : mat6 := fun a b c i j k =>
  eomn_X3Cs17 d H T R a b c i j k + eomn_X3Ct18 d H T R a b c i j k.
(** ccpy/eomcc/eomccsdt.py, build_HR_3C, line 302: the term added there *)
Definition eomn_X3Ct19 (d : dims) (H : ints) (T R : amps) : mat6 := fun a b c i j k =>
  1 / 8 * (sumn (nub d) (fun e => sumn (nub d) (fun f => (eomt_X_bb_vvvv_1 d H T R c b e f) * (x_abb T a f e i j k)))).
(** ccpy/eomcc/eomccsdt.py, build_HR_3C, line 302: all terms up to this one, renamed *)
Definition eomn_X3Cs19 (d : dims) (H : ints) (T R : amps) : mat6 := fun a b c i j k =>
  eomn_X3Cs18 d H T R a b c i j k - eomn_X3Ct19 d H T R a c b i j k.
(** ccpy/eomcc/eomccsdt.py, build_HR_3C, line 303: the term added there *)
Definition eomn_X3Ct20 (d : dims) (H : ints) (T R : amps) : mat6 := fun a b c i j k =>
  1 / 4 * (sumn (nob d) (fun n => sumn (nub d) (fun f => (eomt_X_ab_voov d H T R a n i f) * (x_bbb T c b f k j n)))).
(** ccpy/eomcc/eomccsdt.py, build_HR_3C, line 303: all terms up to this one, renamed *)
Definition eomn_X3Cs20 (d : dims) (H : ints) (T R : amps) : mat6 := fun a b c i j k =>
  eomn_X3Cs19 d H T R a b c i j k + eomn_X3Ct20 d H T R a b c i j k.
(** ccpy/eomcc/eomccsdt.py, build_HR_3C, line 304: the term added there *)
Definition eomn_X3Ct21 (d : dims) (H : ints) (T R : amps) : mat6 := fun a b c i j k =>
  1 / 4 * (sumn (noa d) (fun n => sumn (nua d) (fun f => (eomt_X_aa_voov d H T R a n i f) * (x_abb T f b c n j k)))).
(** ccpy/eomcc/eomccsdt.py, build_HR_3C, line 304: all terms up to this one, renamed *)
Definition eomn_X3Cs21 (d : dims) (H : ints) (T R : amps) : mat6 := fun a b c i j k =>
  eomn_X3Cs20 d H T R a b c i j k + eomn_X3Ct21 d H T R a b c i j k.
(** ccpy/eomcc/eomccsdt.py, build_HR_3C, line 305: the term added there *)
Definition eomn_X3Ct22 (d : dims) (H : ints) (T R : amps) : mat6 := fun a b c i j k =>
  1 / 2 * (sumn (noa d) (fun m => sumn (nub d) (fun f => (eomt_X_ab_ovov d H T R m b i f) * (x_abb T a f c m j k)))).
(** ccpy/eomcc/eomccsdt.py, build_HR_3C, line 305: all terms up to this one, renamed *)
Definition eomn_X3Cs22 (d : dims) (H : ints) (T R : amps) : mat6 := fun a b c i j k =>
  eomn_X3Cs21 d H T R a b c i j k - eomn_X3Ct22 d H T R a b c i j k.
(** ccpy/eomcc/eomccsdt.py, build_HR_3C, line 306: the term added there *)
Definition eomn_X3Ct23 (d : dims) (H : ints) (T R : amps) : mat6 := fun a b c i j k =>
  1 / 2 * (sumn (nob d) (fun n => sumn (nua d) (fun e => (eomt_X_ab_vovo d H T R a n e j) * (x_abb T e b c i n k)))).
(** ccpy/eomcc/eomccsdt.py, build_HR_3C, line 306: all terms up to this one, renamed *)
Definition eomn_X3Cs23 (d : dims) (H : ints) (T R : amps) : mat6 := fun a b c i j k =>
  eomn_X3Cs22 d H T R a b c i j k - eomn_X3Ct23 d H T R a b c i j k.
(** ccpy/eomcc/eomccsdt.py, build_HR_3C, line 307: the term added there *)
Definition eomn_X3Ct24 (d : dims) (H : ints) (T R : amps) : mat6 := fun a b c i j k =>
  sumn (nob d) (fun m => sumn (nub d) (fun e => (eomt_X_bb_voov d H T R b m j e) * (x_abb T a e c i m k))).
(** ccpy/eomcc/eomccsdt.py, build_HR_3C, line 307: all terms up to this one, renamed *)
Definition eomn_X3Cs24 (d : dims) (H : ints) (T R : amps) : mat6 := fun a b c i j k =>
  eomn_X3Cs23 d H T R a b c i j k + eomn_X3Ct24 d H T R a b c i j k.
(** ccpy/eomcc/eomccsdt.py, build_HR_3C, line 308: the term added there *)
Definition eomn_X3Ct25 (d : dims) (H : ints) (T R : amps) : mat6 := fun a b c i j k =>
  sumn (noa d) (fun m => sumn (nua d) (fun e => (eomt_X_ab_ovvo d H T R m b e j) * (x_aab T a e c i m k))).
(** ccpy/eomcc/eomccsdt.py, build_HR_3C, line 308: all terms up to this one, renamed *)
Definition eomn_X3Cs25 (d : dims) (H : ints) (T R : amps) : mat6 := fun a b c i j k =>
  eomn_X3Cs24 d H T R a b c i j k + eomn_X3Ct25 d H T R a b c i j k.
(** ccpy/eomcc/eomccsdt.py, build_HR_3C, line 310: the term added there *)
Definition eomn_X3Ct26 (d : dims) (H : ints) (T R : amps) : mat6 := fun a b c i j k =>
  1 / 2 * (sumn (nob d) (fun m => (i_b_oo H m j) * (x_abb R a b c i m k))).
(** ccpy/eomcc/eomccsdt.py, build_HR_3C, line 310: all terms up to this one, renamed *)
Definition eomn_X3Cs26 (d : dims) (H : ints) (T R : amps) : mat6 := fun a b c i j k =>
  eomn_X3Cs25 d H T R a b c i j k - eomn_X3Ct26 d H T R a b c i j k.
(** ccpy/eomcc/eomccsdt.py, build_HR_3C, line 311: the term added there *)
Definition eomn_X3Ct27 (d : dims) (H : ints) (T R : amps) : mat6 := fun a b c i j k =>
  1 / 4 * (sumn (noa d) (fun m => (i_a_oo H m i) * (x_abb R a b c m j k))).
(** ccpy/eomcc/eomccsdt.py, build_HR_3C, line 311: all terms up to this one, renamed *)
Definition eomn_X3Cs27 (d : dims) (H : ints) (T R : amps) : mat6 := fun a b c i j k =>
  eomn_X3Cs26 d H T R a b c i j k - eomn_X3Ct27 d H T R a b c i j k.
(** ccpy/eomcc/eomccsdt.py, build_HR_3C, line 312: the term added there *)
Definition eomn_X3Ct28 (d : dims) (H : ints) (T R : amps) : mat6 := fun a b c i j k =>
  1 / 2 * (sumn (nub d) (fun e => (i_b_vv H b e) * (x_abb R a e c i j k))).
(** ccpy/eomcc/eomccsdt.py, build_HR_3C, line 312: all terms up to this one, renamed *)
Definition eomn_X3Cs28 (d : dims) (H : ints) (T R : amps) : mat6 := fun a b c i j k =>
  eomn_X3Cs27 d H T R a b c i j k + eomn_X3Ct28 d H T R a b c i j k.
(** ccpy/eomcc/eomccsdt.py, build_HR_3C, line 313: the term added there *)
Definition eomn_X3Ct29 (d : dims) (H : ints) (T R : amps) : mat6 := fun a b c i j k =>
  1 / 4 * (sumn (nua d) (fun e => (i_a_vv H a e) * (x_abb R e b c i j k))).
(** ccpy/eomcc/eomccsdt.py, build_HR_3C, line 313: all terms up to this one, renamed *)
Definition eomn_X3Cs29 (d : dims) (H : ints) (T R : amps) : mat6 := fun a b c i j k =>
  eomn_X3Cs28 d H T R a b c i j k + eomn_X3Ct29 d H T R a b c i j k.
(** ccpy/eomcc/eomccsdt.py, build_HR_3C, line 314: the term added there *)
Definition eomn_X3Ct30 (d : dims) (H : ints) (T R : amps) : mat6 := fun a b c i j k =>
  1 / 8 * (sumn (nob d) (fun m => sumn (nob d) (fun n => (i_bb_oooo H m n k j) * (x_abb R a b c i n m)))).
(** ccpy/eomcc/eomccsdt.py, build_HR_3C, line 314: all terms up to this one, renamed *)
Definition eomn_X3Cs30 (d : dims) (H : ints) (T R : amps) : mat6 := fun a b c i j k =>
  eomn_X3Cs29 d H T R a b c i j k - eomn_X3Ct30 d H T R a b c i k j.
(** ccpy/eomcc/eomccsdt.py, build_HR_3C, line 315: the term added there *)
Definition eomn_X3Ct31 (d : dims) (H : ints) (T R : amps) : mat6 := fun a b c i j k =>
  1 / 2 * (sumn (noa d) (fun n => sumn (nob d) (fun m => (i_ab_oooo H n m i j) * (x_abb R a b c n m k)))).
(** ccpy/eomcc/eomccsdt.py, build_HR_3C, line 315: all terms up to this one, renamed *)
Definition eomn_X3Cs31 (d : dims) (H : ints) (T R : amps) : mat6 := fun a b c i j k =>
  eomn_X3Cs30 d H T R a b c i j k + eomn_X3Ct31 d H T R a b c i j k.
(** ccpy/eomcc/eomccsdt.py, build_HR_3C, line 316: the term added there *)
Definition eomn_X3Ct32 (d : dims) (H : ints) (T R : amps) : mat6 := fun a b c i j k =>
  1 / 8 * (sumn (nub d) (fun e => sumn (nub d) (fun f => (i_bb_vvvv H c b e f) * (x_abb R a f e i j k)))).
(** ccpy/eomcc/eomccsdt.py, build_HR_3C, line 316: all terms up to this one, renamed *)
Definition eomn_X3Cs32 (d : dims) (H : ints) (T R : amps) : mat6 := fun a b c i j k =>
  eomn_X3Cs31 d H T R a b c i j k - eomn_X3Ct32 d H T R a c b i j k.
(** ccpy/eomcc/eomccsdt.py, build_HR_3C, line 317: the term added there *)
Definition eomn_X3Ct33 (d : dims) (H : ints) (T R : amps) : mat6 := fun a b c i j k =>
  1 / 2 * (sumn (nua d) (fun f => sumn (nub d) (fun e => (i_ab_vvvv H a b f e) * (x_abb R f e c i j k)))).
(** ccpy/eomcc/eomccsdt.py, build_HR_3C, line 317: all terms up to this one, renamed *)
Definition eomn_X3Cs33 (d : dims) (H : ints) (T R : amps) : mat6 := fun a b c i j k =>
  eomn_X3Cs32 d H T R a b c i j k + eomn_X3Ct33 d H T R a b c i j k.
(** ccpy/eomcc/eomccsdt.py, build_HR_3C, line 318: the term added there *)
Definition eomn_X3Ct34 (d : dims) (H : ints) (T R : amps) : mat6 := fun a b c i j k =>
  sumn (nob d) (fun m => sumn (nub d) (fun e => (i_bb_voov H c m k e) * (x_abb R a b e i j m))).
(** ccpy/eomcc/eomccsdt.py, build_HR_3C, line 318: all terms up to this one, renamed *)
Definition eomn_X3Cs34 (d : dims) (H : ints) (T R : amps) : mat6 := fun a b c i j k =>
  eomn_X3Cs33 d H T R a b c i j k + eomn_X3Ct34 d H T R a c b i k j.
(** ccpy/eomcc/eomccsdt.py, build_HR_3C, line 319: the term added there *)
Definition eomn_X3Ct35 (d : dims) (H : ints) (T R : amps) : mat6 := fun a b c i j k =>
  sumn (noa d) (fun m => sumn (nua d) (fun e => (i_ab_ovvo H m c e k) * (x_aab R a e b i m j))).
(** ccpy/eomcc/eomccsdt.py, build_HR_3C, line 319: all terms up to this one, renamed *)
Definition eomn_X3Cs35 (d : dims) (H : ints) (T R : amps) : mat6 := fun a b c i j k =>
  eomn_X3Cs34 d H T R a b c i j k + eomn_X3Ct35 d H T R a c b i k j.
(** ccpy/eomcc/eomccsdt.py, build_HR_3C, line 320: the term added there *)
Definition eomn_X3Ct36 (d : dims) (H : ints) (T R : amps) : mat6 := fun a b c i j k =>
  1 / 4 * (sumn (nob d) (fun m => sumn (nub d) (fun e => (i_ab_voov H a m i e) * (x_bbb R e b c m j k)))).
(** ccpy/eomcc/eomccsdt.py, build_HR_3C, line 320: all terms up to this one, renamed *)
Definition eomn_X3Cs36 (d : dims) (H : ints) (T R : amps) : mat6 := fun a b c i j k =>
  eomn_X3Cs35 d H T R a b c i j k + eomn_X3Ct36 d H T R a b c i j k.
(** ccpy/eomcc/eomccsdt.py, build_HR_3C, line 321: the term added there *)
Definition eomn_X3Ct37 (d : dims) (H : ints) (T R : amps) : mat6 := fun a b c i j k =>
  1 / 4 * (sumn (noa d) (fun m => sumn (nua d) (fun e => (i_aa_voov H a m i e) * (x_abb R e b c m j k)))).
(** ccpy/eomcc/eomccsdt.py, build_HR_3C, line 321: all terms up to this one, renamed *)
Definition eomn_X3Cs37 (d : dims) (H : ints) (T R : amps) : mat6 := fun a b c i j k =>
  eomn_X3Cs36 d H T R a b c i j k + eomn_X3Ct37 d H T R a b c i j k.
(** ccpy/eomcc/eomccsdt.py, build_HR_3C, line 322: the term added there *)
Definition eomn_X3Ct38 (d : dims) (H : ints) (T R : amps) : mat6 := fun a b c i j k =>
  1 / 2 * (sumn (noa d) (fun m => sumn (nub d) (fun e => (i_ab_ovov H m b i e) * (x_abb R a e c m j k)))).
(** ccpy/eomcc/eomccsdt.py, build_HR_3C, line 322: all terms up to this one, renamed *)
Definition eomn_X3Cs38 (d : dims) (H : ints) (T R : amps) : mat6 := fun a b c i j k =>
  eomn_X3Cs37 d H T R a b c i j k - eomn_X3Ct38 d H T R a b c i j k.
(** ccpy/eomcc/eomccsdt.py, build_HR_3C, line 323: the term added there *)
Definition eomn_X3Ct39 (d : dims) (H : ints) (T R : amps) : mat6 := fun a b c i j k =>
  1 / 2 * (sumn (nob d) (fun m => sumn (nua d) (fun e => (i_ab_vovo H a m e j) * (x_abb R e b c i m k)))).
(** ccpy/eomcc/eomccsdt.py, build_HR_3C, line 323: all terms up to this one, renamed *)
Definition eomn_X3Cs39 (d : dims) (H : ints) (T R : amps) : mat6 := fun a b c i j k =>
  eomn_X3Cs38 d H T R a b c i j k - eomn_X3Ct39 d H T R a b c i j k.
(** the product placed differently *)
Definition eomn_X3Cu (d : dims) (H : ints) (T R : amps) : mat6 := fun a b c i j k =>
  sumn (noa d) (fun m => sumn (nua d) (fun e => (i_a_ov H m e) * ((x_ab T e b i j) * (x_ab R a c m k)))).
(** all terms, that product moved *)
Definition eomn_X3Cf (d : dims) (H : ints) (T R : amps) : mat6 := fun a b c i j k =>
  eomn_X3Cs39 d H T R a b c i j k + eomn_X3Cu d H T R a b c i j k - eomn_X3Cu d H T R a c b i k j.
(** ccpy/eomcc/eomccsdt.py, build_HR_3D, line 330: the term added there *)
Definition eomn_X3Dt0 (d : dims) (H : ints) (T R : amps) : mat6 := fun a b c i j k =>
  1 / 4 * (sumn (nub d) (fun e => (eomt_X_bb_vvov_2 d H T R b a j e) * (x_bb T e c i k))).
(** ccpy/eomcc/eomccsdt.py, build_HR_3D, line 330: all terms up to this one, renamed *)
Definition eomn_X3Ds0 (d : dims) (H : ints) (T R : amps) : mat6 := fun a b c i j k =>
  eomn_X3Dt0 d H T R b a c j i k.
(** ccpy/eomcc/eomccsdt.py, build_HR_3D, line 331: the term added there *)
Definition eomn_X3Dt1 (d : dims) (H : ints) (T R : amps) : mat6 := fun a b c i j k =>
  1 / 4 * (sumn (nub d) (fun e => (i_bb_vvov H b a j e) * (x_bb R e c i k))).
(** ccpy/eomcc/eomccsdt.py, build_HR_3D, line 331: all terms up to this one, renamed *)
Definition eomn_X3Ds1 (d : dims) (H : ints) (T R : amps) : mat6 := fun a b c i j k =>
  eomn_X3Ds0 d H T R a b c i j k + eomn_X3Dt1 d H T R b a c j i k.
(** ccpy/eomcc/eomccsdt.py, build_HR_3D, line 332: the term added there *)
Definition eomn_X3Dt2 (d : dims) (H : ints) (T R : amps) : mat6 := fun a b c i j k =>
  1 / 4 * (sumn (nob d) (fun m => (eomt_X_bb_vooo_2 d H T R b m j i) * (x_bb T a c m k))).
(** ccpy/eomcc/eomccsdt.py, build_HR_3D, line 332: all terms up to this one, renamed *)
Definition eomn_X3Ds2 (d : dims) (H : ints) (T R : amps) : mat6 := fun a b c i j k =>
  eomn_X3Ds1 d H T R a b c i j k - eomn_X3Dt2 d H T R b a c j i k.
(** ccpy/eomcc/eomccsdt.py, build_HR_3D, line 333: the term added there *)
Definition eomn_X3Dt3 (d : dims) (H : ints) (T R : amps) : mat6 := fun a b c i j k =>
  1 / 4 * (sumn (nob d) (fun m => (i_bb_vooo H b m j i) * (x_bb R a c m k))).
(** ccpy/eomcc/eomccsdt.py, build_HR_3D, line 333: all terms up to this one, renamed *)
Definition eomn_X3Ds3 (d : dims) (H : ints) (T R : amps) : mat6 := fun a b c i j k =>
  eomn_X3Ds2 d H T R a b c i j k - eomn_X3Dt3 d H T R b a c j i k.
(** ccpy/eomcc/eomccsdt.py, build_HR_3D, line 335: the term added there *)
Definition eomn_X3Dt4 (d : dims) (H : ints) (T R : amps) : mat6 := fun a b c i j k =>
  1 / 12 * (sumn (nub d) (fun e => (eomt_X_b_vv_1 d H T R b e) * (x_bbb T a e c i j k))).
(** ccpy/eomcc/eomccsdt.py, build_HR_3D, line 335: all terms up to this one, renamed *)
Definition eomn_X3Ds4 (d : dims) (H : ints) (T R : amps) : mat6 := fun a b c i j k =>
  eomn_X3Ds3 d H T R a b c i j k - eomn_X3Dt4 d H T R a c b i j k.
(** ccpy/eomcc/eomccsdt.py, build_HR_3D, line 336: the term added there *)
Definition eomn_X3Dt5 (d : dims) (H : ints) (T R : amps) : mat6 := fun a b c i j k =>
  1 / 12 * (sumn (nob d) (fun m => (eomt_X_b_oo_1 d H T R m j) * (x_bbb T a b c i m k))).
(** ccpy/eomcc/eomccsdt.py, build_HR_3D, line 336: all terms up to this one, renamed *)
Definition eomn_X3Ds5 (d : dims) (H : ints) (T R : amps) : mat6 := fun a b c i j k =>
  eomn_X3Ds4 d H T R a b c i j k + eomn_X3Dt5 d H T R a b c i k j.
(** ccpy/eomcc/eomccsdt.py, build_HR_3D, line 337: the term added there *)
Definition eomn_X3Dt6 (d : dims) (H : ints) (T R : amps) : mat6 := fun a b c i j k =>
  1 / 24 * (sumn (nob d) (fun m => sumn (nob d) (fun n => (eomt_X_bb_oooo_1 d H T R m n i j) * (x_bbb T a b c m n k)))).
(** ccpy/eomcc/eomccsdt.py, build_HR_3D, line 337: all terms up to this one, renamed *)
Definition eomn_X3Ds6 (d : dims) (H : ints) (T R : amps) : mat6 := fun a b c i j k =>
  eomn_X3Ds5 d H T R a b c i j k + eomn_X3Dt6 d H T R a b c i j k.
(** ccpy/eomcc/eomccsdt.py, build_HR_3D, line 338: the term added there *)
Definition eomn_X3Dt7 (d : dims) (H : ints) (T R : amps) : mat6 := fun a b c i j k =>
  1 / 24 * (sumn (nub d) (fun e => sumn (nub d) (fun f => (eomt_X_bb_vvvv_1 d H T R a b e f) * (x_bbb T e f c i j k)))).
(** ccpy/eomcc/eomccsdt.py, build_HR_3D, line 338: all terms up to this one, renamed *)
Definition eomn_X3Ds7 (d : dims) (H : ints) (T R : amps) : mat6 := fun a b c i j k =>
  eomn_X3Ds6 d H T R a b c i j k + eomn_X3Dt7 d H T R a b c i j k.
(** ccpy/eomcc/eomccsdt.py, build_HR_3D, line 339: the term added there *)
Definition eomn_X3Dt8 (d : dims) (H : ints) (T R : amps) : mat6 := fun a b c i j k =>
  1 / 4 * (sumn (nob d) (fun m => sumn (nub d) (fun e => (eomt_X_bb_voov d H T R b m j e) * (x_bbb T a e c i m k)))).
(** ccpy/eomcc/eomccsdt.py, build_HR_3D, line 339: all terms up to this one, renamed *)
Definition eomn_X3Ds8 (d : dims) (H : ints) (T R : amps) : mat6 := fun a b c i j k =>
  eomn_X3Ds7 d H T R a b c i j k + eomn_X3Dt8 d H T R b a c j i k.
(** ccpy/eomcc/eomccsdt.py, build_HR_3D, line 340: the term added there *)
Definition eomn_X3Dt9 (d : dims) (H : ints) (T R : amps) : mat6 := fun a b c i j k =>
  1 / 4 * (sumn (noa d) (fun m => sumn (nua d) (fun e => (eomt_X_ab_ovvo d H T R m b e j) * (x_abb T e c a m k i)))).
(** ccpy/eomcc/eomccsdt.py, build_HR_3D, line 340: all terms up to this one, renamed *)
Definition eomn_X3Ds9 (d : dims) (H : ints) (T R : amps) : mat6 := fun a b c i j k =>
  eomn_X3Ds8 d H T R a b c i j k + eomn_X3Dt9 d H T R b a c j i k.
(** ccpy/eomcc/eomccsdt.py, build_HR_3D, line 342: the term added there *)
Definition eomn_X3Dt10 (d : dims) (H : ints) (T R : amps) : mat6 := fun a b c i j k =>
  1 / 12 * (sumn (nob d) (fun m => (i_b_oo H m j) * (x_bbb R a b c i m k))).
(** ccpy/eomcc/eomccsdt.py, build_HR_3D, line 342: all terms up to this one, renamed *)
Definition eomn_X3Ds10 (d : dims) (H : ints) (T R : amps) : mat6 := fun a b c i j k =>
  eomn_X3Ds9 d H T R a b c i j k + eomn_X3Dt10 d H T R a b c i k j.
(** ccpy/eomcc/eomccsdt.py, build_HR_3D, line 343: the term added there *)
Definition eomn_X3Dt11 (d : dims) (H : ints) (T R : amps) : mat6 := fun a b c i j k =>
  1 / 12 * (sumn (nub d) (fun e => (i_b_vv H b e) * (x_bbb R a e c i j k))).
(** ccpy/eomcc/eomccsdt.py, build_HR_3D, line 343: all terms up to this one, renamed *)
Definition eomn_X3Ds11 (d : dims) (H : ints) (T R : amps) : mat6 := fun a b c i j k =>
  eomn_X3Ds10 d H T R a b c i j k - eomn_X3Dt11 d H T R a c b i j k.
(** ccpy/eomcc/eomccsdt.py, build_HR_3D, line 344: the term added there *)
Definition eomn_X3Dt12 (d : dims) (H : ints) (T R : amps) : mat6 := fun a b c i j k =>
  1 / 24 * (sumn (nob d) (fun m => sumn (nob d) (fun n => (i_bb_oooo H m n i j) * (x_bbb R a b c m n k)))).
(** ccpy/eomcc/eomccsdt.py, build_HR_3D, line 344: all terms up to this one, renamed *)
Definition eomn_X3Ds12 (d : dims) (H : ints) (T R : amps) : mat6 := fun a b c i j k =>
  eomn_X3Ds11 d H T R a b c i j k + eomn_X3Dt12 d H T R a b c i j k.
(** ccpy/eomcc/eomccsdt.py, build_HR_3D, line 345: the term added there *)
Definition eomn_X3Dt13 (d : dims) (H : ints) (T R : amps) : mat6 := fun a b c i j k =>
  1 / 24 * (sumn (nub d) (fun e => sumn (nub d) (fun f => (i_bb_vvvv H a b e f) * (x_bbb R e f c i j k)))).
(** ccpy/eomcc/eomccsdt.py, build_HR_3D, line 345: all terms up to this one, renamed *)
Definition eomn_X3Ds13 (d : dims) (H : ints) (T R : amps) : mat6 := fun a b c i j k =>
  eomn_X3Ds12 d H T R a b c i j k + eomn_X3Dt13 d H T R a b c i j k.
(** ccpy/eomcc/eomccsdt.py, build_HR_3D, line 346: the term added there *)
Definition eomn_X3Dt14 (d : dims) (H : ints) (T R : amps) : mat6 := fun a b c i j k =>
  1 / 4 * (sumn (nob d) (fun m => sumn (nub d) (fun e => (i_bb_voov H a m i e) * (x_bbb R e b c m j k)))).
(** ccpy/eomcc/eomccsdt.py, build_HR_3D, line 346: all terms up to this one, renamed *)
Definition eomn_X3Ds14 (d : dims) (H : ints) (T R : amps) : mat6 := fun a b c i j k =>
  eomn_X3Ds13 d H T R a b c i j k + eomn_X3Dt14 d H T R a b c i j k.
(** ccpy/eomcc/eomccsdt.py, build_HR_3D, line 347: the term added there *)
Definition eomn_X3Dt15 (d : dims) (H : ints) (T R : amps) : mat6 := fun a b c i j k =>
  1 / 4 * (sumn (noa d) (fun m => sumn (nua d) (fun e => (i_ab_ovvo H m a e i) * (x_abb R e c b m k j)))).
(** ccpy/eomcc/eomccsdt.py, build_HR_3D, line 347: all terms up to this one, renamed *)
Definition eomn_X3Ds15 (d : dims) (H : ints) (T R : amps) : mat6 := fun a b c i j k =>
  eomn_X3Ds14 d H T R a b c i j k + eomn_X3Dt15 d H T R a b c i j k.
(** the product placed differently *)
Definition eomn_X3Du (d : dims) (H : ints) (T R : amps) : mat6 := fun a b c i j k =>
  1 / 4 * (sumn (nob d) (fun m => sumn (nub d) (fun e => (i_b_ov H m e) * ((x_bb T a e i j) * (x_bb R b c k m))))).
(** all terms, that product moved *)
Definition eomn_X3Df (d : dims) (H : ints) (T R : amps) : mat6 := fun a b c i j k =>
  eomn_X3Ds15 d H T R a b c i j k + eomn_X3Du d H T R c a b j k i - eomn_X3Du d H T R a b c i j k.
Lemma X3A_norm0 d H T R : eqc comb3 (eomn_X3As0 d H T R) (eomt_X3A d H T R).
Proof. exact (nstart_p comb3 (fun a b c i j k => eomn_X3At0 d H T R b a c j i k) (eomn_X3At0 d H T R) (ltac:(intros a b c i j k; c3p (eomn_X3At0 d H T R)))). Qed.
Lemma X3A_norm1 d H T R : eqc comb3 (eomn_X3As1 d H T R) (eomt_X3A_1 d H T R).
Proof. exact (nadd_p comb3 comb3_add comb3_sub (eomn_X3As0 d H T R) (eomt_X3A d H T R) (fun a b c i j k => eomn_X3At1 d H T R b a c j i k) (eomn_X3At1 d H T R) (X3A_norm0 d H T R) (ltac:(intros a b c i j k; c3p (eomn_X3At1 d H T R)))). Qed.
Lemma X3A_norm2 d H T R : eqc comb3 (eomn_X3As2 d H T R) (eomt_X3A_2 d H T R).
Proof. exact (nsub_p comb3 comb3_add comb3_sub (eomn_X3As1 d H T R) (eomt_X3A_1 d H T R) (fun a b c i j k => eomn_X3At2 d H T R b a c j i k) (eomn_X3At2 d H T R) (X3A_norm1 d H T R) (ltac:(intros a b c i j k; c3p (eomn_X3At2 d H T R)))). Qed.
Lemma X3A_norm3 d H T R : eqc comb3 (eomn_X3As3 d H T R) (eomt_X3A_3 d H T R).
Proof. exact (nsub_p comb3 comb3_add comb3_sub (eomn_X3As2 d H T R) (eomt_X3A_2 d H T R) (fun a b c i j k => eomn_X3At3 d H T R b a c j i k) (eomn_X3At3 d H T R) (X3A_norm2 d H T R) (ltac:(intros a b c i j k; c3p (eomn_X3At3 d H T R)))). Qed.
Lemma X3A_norm4 d H T R : eqc comb3 (eomn_X3As4 d H T R) (eomt_X3A_4 d H T R).
Proof. exact (nadd_m comb3 comb3_add comb3_sub (eomn_X3As3 d H T R) (eomt_X3A_3 d H T R) (fun a b c i j k => eomn_X3At4 d H T R a c b i j k) (eomn_X3At4 d H T R) (X3A_norm3 d H T R) (ltac:(intros a b c i j k; c3p (eomn_X3At4 d H T R)))). Qed.
Lemma X3A_norm5 d H T R : eqc comb3 (eomn_X3As5 d H T R) (eomt_X3A_5 d H T R).
Proof. exact (nsub_m comb3 comb3_add comb3_sub (eomn_X3As4 d H T R) (eomt_X3A_4 d H T R) (fun a b c i j k => eomn_X3At5 d H T R a b c i k j) (eomn_X3At5 d H T R) (X3A_norm4 d H T R) (ltac:(intros a b c i j k; c3p (eomn_X3At5 d H T R)))). Qed.
Lemma X3A_norm6 d H T R : eqc comb3 (eomn_X3As6 d H T R) (eomt_X3A_6 d H T R).
Proof. exact (nadd_p comb3 comb3_add comb3_sub (eomn_X3As5 d H T R) (eomt_X3A_5 d H T R) (fun a b c i j k => eomn_X3At6 d H T R a b c i j k) (eomn_X3At6 d H T R) (X3A_norm5 d H T R) (ltac:(intros a b c i j k; c3p (eomn_X3At6 d H T R)))). Qed.
Lemma X3A_norm7 d H T R : eqc comb3 (eomn_X3As7 d H T R) (eomt_X3A_7 d H T R).
Proof. exact (nadd_p comb3 comb3_add comb3_sub (eomn_X3As6 d H T R) (eomt_X3A_6 d H T R) (fun a b c i j k => eomn_X3At7 d H T R a b c i j k) (eomn_X3At7 d H T R) (X3A_norm6 d H T R) (ltac:(intros a b c i j k; c3p (eomn_X3At7 d H T R)))). Qed.
Lemma X3A_norm8 d H T R : eqc comb3 (eomn_X3As8 d H T R) (eomt_X3A_8 d H T R).
Proof. exact (nadd_p comb3 comb3_add comb3_sub (eomn_X3As7 d H T R) (eomt_X3A_7 d H T R) (fun a b c i j k => eomn_X3At8 d H T R a c b i k j) (eomn_X3At8 d H T R) (X3A_norm7 d H T R) (ltac:(intros a b c i j k; c3p (eomn_X3At8 d H T R)))). Qed.
Lemma X3A_norm9 d H T R : eqc comb3 (eomn_X3As9 d H T R) (eomt_X3A_9 d H T R).
Proof. exact (nadd_p comb3 comb3_add comb3_sub (eomn_X3As8 d H T R) (eomt_X3A_8 d H T R) (fun a b c i j k => eomn_X3At9 d H T R a c b i k j) (eomn_X3At9 d H T R) (X3A_norm8 d H T R) (ltac:(intros a b c i j k; c3p (eomn_X3At9 d H T R)))). Qed.
Lemma X3A_norm10 d H T R : eqc comb3 (eomn_X3As10 d H T R) (eomt_X3A_10 d H T R).
Proof. exact (nsub_m comb3 comb3_add comb3_sub (eomn_X3As9 d H T R) (eomt_X3A_9 d H T R) (fun a b c i j k => eomn_X3At10 d H T R a b c i k j) (eomn_X3At10 d H T R) (X3A_norm9 d H T R) (ltac:(intros a b c i j k; c3p (eomn_X3At10 d H T R)))). Qed.
Lemma X3A_norm11 d H T R : eqc comb3 (eomn_X3As11 d H T R) (eomt_X3A_11 d H T R).
Proof. exact (nadd_m comb3 comb3_add comb3_sub (eomn_X3As10 d H T R) (eomt_X3A_10 d H T R) (fun a b c i j k => eomn_X3At11 d H T R a c b i j k) (eomn_X3At11 d H T R) (X3A_norm10 d H T R) (ltac:(intros a b c i j k; c3p (eomn_X3At11 d H T R)))). Qed.
Lemma X3A_norm12 d H T R : eqc comb3 (eomn_X3As12 d H T R) (eomt_X3A_12 d H T R).
Proof. exact (nadd_p comb3 comb3_add comb3_sub (eomn_X3As11 d H T R) (eomt_X3A_11 d H T R) (fun a b c i j k => eomn_X3At12 d H T R a b c i j k) (eomn_X3At12 d H T R) (X3A_norm11 d H T R) (ltac:(intros a b c i j k; c3p (eomn_X3At12 d H T R)))). Qed.
Lemma X3A_norm13 d H T R : eqc comb3 (eomn_X3As13 d H T R) (eomt_X3A_13 d H T R).
Proof. exact (nadd_p comb3 comb3_add comb3_sub (eomn_X3As12 d H T R) (eomt_X3A_12 d H T R) (fun a b c i j k => eomn_X3At13 d H T R a b c i j k) (eomn_X3At13 d H T R) (X3A_norm12 d H T R) (ltac:(intros a b c i j k; c3p (eomn_X3At13 d H T R)))). Qed.
Lemma X3A_norm14 d H T R : eqc comb3 (eomn_X3As14 d H T R) (eomt_X3A_14 d H T R).
Proof. exact (nadd_p comb3 comb3_add comb3_sub (eomn_X3As13 d H T R) (eomt_X3A_13 d H T R) (fun a b c i j k => eomn_X3At14 d H T R c a b k i j) (eomn_X3At14 d H T R) (X3A_norm13 d H T R) (ltac:(intros a b c i j k; c3p (eomn_X3At14 d H T R)))). Qed.
Lemma X3A_norm15 d H T R : eqc comb3 (eomn_X3As15 d H T R) (eomt_X3A_15 d H T R).
Proof. exact (nadd_p comb3 comb3_add comb3_sub (eomn_X3As14 d H T R) (eomt_X3A_14 d H T R) (fun a b c i j k => eomn_X3At15 d H T R c a b k i j) (eomn_X3At15 d H T R) (X3A_norm14 d H T R) (ltac:(intros a b c i j k; c3p (eomn_X3At15 d H T R)))). Qed.
Lemma X3A_norm d H T R : eqc comb3 (eomn_X3Af d H T R) (eomt_X3A_15 d H T R).
Proof. intros a b c i j k. rewrite <- X3A_norm15. unfold eomn_X3Af. generalize (eomn_X3As15 d H T R) (eomn_X3Au d H T R). intros F G. cbv [comb3]. ring. Qed.
Lemma X3B_norm0 d H T R : eqc comb3b (eomn_X3Bs0 d H T R) (eomt_X3B d H T R).
Proof. exact (nstart_p comb3b (fun a b c i j k => eomn_X3Bt0 d H T R a b c i j k) (eomn_X3Bt0 d H T R) (ltac:(intros a b c i j k; c3p (eomn_X3Bt0 d H T R)))). Qed.
Lemma X3B_norm1 d H T R : eqc comb3b (eomn_X3Bs1 d H T R) (eomt_X3B_1 d H T R).
Proof. exact (nadd_p comb3b comb3b_add comb3b_sub (eomn_X3Bs0 d H T R) (eomt_X3B d H T R) (fun a b c i j k => eomn_X3Bt1 d H T R a b c i j k) (eomn_X3Bt1 d H T R) (X3B_norm0 d H T R) (ltac:(intros a b c i j k; c3p (eomn_X3Bt1 d H T R)))). Qed.
Lemma X3B_norm2 d H T R : eqc comb3b (eomn_X3Bs2 d H T R) (eomt_X3B_2 d H T R).
Proof. exact (nsub_p comb3b comb3b_add comb3b_sub (eomn_X3Bs1 d H T R) (eomt_X3B_1 d H T R) (fun a b c i j k => eomn_X3Bt2 d H T R a b c i j k) (eomn_X3Bt2 d H T R) (X3B_norm1 d H T R) (ltac:(intros a b c i j k; c3p (eomn_X3Bt2 d H T R)))). Qed.
Lemma X3B_norm3 d H T R : eqc comb3b (eomn_X3Bs3 d H T R) (eomt_X3B_3 d H T R).
Proof. exact (nsub_p comb3b comb3b_add comb3b_sub (eomn_X3Bs2 d H T R) (eomt_X3B_2 d H T R) (fun a b c i j k => eomn_X3Bt3 d H T R a b c i j k) (eomn_X3Bt3 d H T R) (X3B_norm2 d H T R) (ltac:(intros a b c i j k; c3p (eomn_X3Bt3 d H T R)))). Qed.
Lemma X3B_norm4 d H T R : eqc comb3b (eomn_X3Bs4 d H T R) (eomt_X3B_4 d H T R).
Proof. exact (nadd_p comb3b comb3b_add comb3b_sub (eomn_X3Bs3 d H T R) (eomt_X3B_3 d H T R) (fun a b c i j k => eomn_X3Bt4 d H T R b a c j i k) (eomn_X3Bt4 d H T R) (X3B_norm3 d H T R) (ltac:(intros a b c i j k; c3p (eomn_X3Bt4 d H T R)))). Qed.
Lemma X3B_norm5 d H T R : eqc comb3b (eomn_X3Bs5 d H T R) (eomt_X3B_5 d H T R).
Proof. exact (nadd_p comb3b comb3b_add comb3b_sub (eomn_X3Bs4 d H T R) (eomt_X3B_4 d H T R) (fun a b c i j k => eomn_X3Bt5 d H T R b a c j i k) (eomn_X3Bt5 d H T R) (X3B_norm4 d H T R) (ltac:(intros a b c i j k; c3p (eomn_X3Bt5 d H T R)))). Qed.
Lemma X3B_norm6 d H T R : eqc comb3b (eomn_X3Bs6 d H T R) (eomt_X3B_6 d H T R).
Proof. exact (nsub_p comb3b comb3b_add comb3b_sub (eomn_X3Bs5 d H T R) (eomt_X3B_5 d H T R) (fun a b c i j k => eomn_X3Bt6 d H T R b a c j i k) (eomn_X3Bt6 d H T R) (X3B_norm5 d H T R) (ltac:(intros a b c i j k; c3p (eomn_X3Bt6 d H T R)))). Qed.
Lemma X3B_norm7 d H T R : eqc comb3b (eomn_X3Bs7 d H T R) (eomt_X3B_7 d H T R).
Proof. exact (nsub_p comb3b comb3b_add comb3b_sub (eomn_X3Bs6 d H T R) (eomt_X3B_6 d H T R) (fun a b c i j k => eomn_X3Bt7 d H T R b a c j i k) (eomn_X3Bt7 d H T R) (X3B_norm6 d H T R) (ltac:(intros a b c i j k; c3p (eomn_X3Bt7 d H T R)))). Qed.
Lemma X3B_norm8 d H T R : eqc comb3b (eomn_X3Bs8 d H T R) (eomt_X3B_8 d H T R).
Proof. exact (nadd_p comb3b comb3b_add comb3b_sub (eomn_X3Bs7 d H T R) (eomt_X3B_7 d H T R) (fun a b c i j k => eomn_X3Bt8 d H T R b a c j i k) (eomn_X3Bt8 d H T R) (X3B_norm7 d H T R) (ltac:(intros a b c i j k; c3p (eomn_X3Bt8 d H T R)))). Qed.
Lemma X3B_norm9 d H T R : eqc comb3b (eomn_X3Bs9 d H T R) (eomt_X3B_9 d H T R).
Proof. exact (nadd_p comb3b comb3b_add comb3b_sub (eomn_X3Bs8 d H T R) (eomt_X3B_8 d H T R) (fun a b c i j k => eomn_X3Bt9 d H T R b a c j i k) (eomn_X3Bt9 d H T R) (X3B_norm8 d H T R) (ltac:(intros a b c i j k; c3p (eomn_X3Bt9 d H T R)))). Qed.
Lemma X3B_norm10 d H T R : eqc comb3b (eomn_X3Bs10 d H T R) (eomt_X3B_10 d H T R).
Proof. exact (nsub_p comb3b comb3b_add comb3b_sub (eomn_X3Bs9 d H T R) (eomt_X3B_9 d H T R) (fun a b c i j k => eomn_X3Bt10 d H T R b a c j i k) (eomn_X3Bt10 d H T R) (X3B_norm9 d H T R) (ltac:(intros a b c i j k; c3p (eomn_X3Bt10 d H T R)))). Qed.
Lemma X3B_norm11 d H T R : eqc comb3b (eomn_X3Bs11 d H T R) (eomt_X3B_11 d H T R).
Proof. exact (nsub_p comb3b comb3b_add comb3b_sub (eomn_X3Bs10 d H T R) (eomt_X3B_10 d H T R) (fun a b c i j k => eomn_X3Bt11 d H T R b a c j i k) (eomn_X3Bt11 d H T R) (X3B_norm10 d H T R) (ltac:(intros a b c i j k; c3p (eomn_X3Bt11 d H T R)))). Qed.
Lemma X3B_norm12 d H T R : eqc comb3b (eomn_X3Bs12 d H T R) (eomt_X3B_12 d H T R).
Proof. exact (nadd_m comb3b comb3b_add comb3b_sub (eomn_X3Bs11 d H T R) (eomt_X3B_11 d H T R) (fun a b c i j k => eomn_X3Bt12 d H T R b a c i j k) (eomn_X3Bt12 d H T R) (X3B_norm11 d H T R) (ltac:(intros a b c i j k; c3p (eomn_X3Bt12 d H T R)))). Qed.
Lemma X3B_norm13 d H T R : eqc comb3b (eomn_X3Bs13 d H T R) (eomt_X3B_13 d H T R).
Proof. exact (nadd_p comb3b comb3b_add comb3b_sub (eomn_X3Bs12 d H T R) (eomt_X3B_12 d H T R) (fun a b c i j k => eomn_X3Bt13 d H T R a b c i j k) (eomn_X3Bt13 d H T R) (X3B_norm12 d H T R) (ltac:(intros a b c i j k; c3p (eomn_X3Bt13 d H T R)))). Qed.
Lemma X3B_norm14 d H T R : eqc comb3b (eomn_X3Bs14 d H T R) (eomt_X3B_14 d H T R).
Proof. exact (nsub_m comb3b comb3b_add comb3b_sub (eomn_X3Bs13 d H T R) (eomt_X3B_13 d H T R) (fun a b c i j k => eomn_X3Bt14 d H T R a b c j i k) (eomn_X3Bt14 d H T R) (X3B_norm13 d H T R) (ltac:(intros a b c i j k; c3p (eomn_X3Bt14 d H T R)))). Qed.
Lemma X3B_norm15 d H T R : eqc comb3b (eomn_X3Bs15 d H T R) (eomt_X3B_15 d H T R).
Proof. exact (nsub_p comb3b comb3b_add comb3b_sub (eomn_X3Bs14 d H T R) (eomt_X3B_14 d H T R) (fun a b c i j k => eomn_X3Bt15 d H T R a b c i j k) (eomn_X3Bt15 d H T R) (X3B_norm14 d H T R) (ltac:(intros a b c i j k; c3p (eomn_X3Bt15 d H T R)))). Qed.
Lemma X3B_norm16 d H T R : eqc comb3b (eomn_X3Bs16 d H T R) (eomt_X3B_16 d H T R).
Proof. exact (nadd_p comb3b comb3b_add comb3b_sub (eomn_X3Bs15 d H T R) (eomt_X3B_15 d H T R) (fun a b c i j k => eomn_X3Bt16 d H T R a b c i j k) (eomn_X3Bt16 d H T R) (X3B_norm15 d H T R) (ltac:(intros a b c i j k; c3p (eomn_X3Bt16 d H T R)))). Qed.
Lemma X3B_norm17 d H T R : eqc comb3b (eomn_X3Bs17 d H T R) (eomt_X3B_17 d H T R).
Proof. exact (nadd_p comb3b comb3b_add comb3b_sub (eomn_X3Bs16 d H T R) (eomt_X3B_16 d H T R) (fun a b c i j k => eomn_X3Bt17 d H T R a b c i j k) (eomn_X3Bt17 d H T R) (X3B_norm16 d H T R) (ltac:(intros a b c i j k; c3p (eomn_X3Bt17 d H T R)))). Qed.
Lemma X3B_norm18 d H T R : eqc comb3b (eomn_X3Bs18 d H T R) (eomt_X3B_18 d H T R).
Proof. exact (nadd_p comb3b comb3b_add comb3b_sub (eomn_X3Bs17 d H T R) (eomt_X3B_17 d H T R) (fun a b c i j k => eomn_X3Bt18 d H T R a b c i j k) (eomn_X3Bt18 d H T R) (X3B_norm17 d H T R) (ltac:(intros a b c i j k; c3p (eomn_X3Bt18 d H T R)))). Qed.
Lemma X3B_norm19 d H T R : eqc comb3b (eomn_X3Bs19 d H T R) (eomt_X3B_19 d H T R).
Proof. exact (nadd_p comb3b comb3b_add comb3b_sub (eomn_X3Bs18 d H T R) (eomt_X3B_18 d H T R) (fun a b c i j k => eomn_X3Bt19 d H T R a b c i j k) (eomn_X3Bt19 d H T R) (X3B_norm18 d H T R) (ltac:(intros a b c i j k; c3p (eomn_X3Bt19 d H T R)))). Qed.
Lemma X3B_norm20 d H T R : eqc comb3b (eomn_X3Bs20 d H T R) (eomt_X3B_20 d H T R).
Proof. exact (nadd_p comb3b comb3b_add comb3b_sub (eomn_X3Bs19 d H T R) (eomt_X3B_19 d H T R) (fun a b c i j k => eomn_X3Bt20 d H T R a b c i j k) (eomn_X3Bt20 d H T R) (X3B_norm19 d H T R) (ltac:(intros a b c i j k; c3p (eomn_X3Bt20 d H T R)))). Qed.
Lemma X3B_norm21 d H T R : eqc comb3b (eomn_X3Bs21 d H T R) (eomt_X3B_21 d H T R).
Proof. exact (nadd_p comb3b comb3b_add comb3b_sub (eomn_X3Bs20 d H T R) (eomt_X3B_20 d H T R) (fun a b c i j k => eomn_X3Bt21 d H T R a b c i j k) (eomn_X3Bt21 d H T R) (X3B_norm20 d H T R) (ltac:(intros a b c i j k; c3p (eomn_X3Bt21 d H T R)))). Qed.
Lemma X3B_norm22 d H T R : eqc comb3b (eomn_X3Bs22 d H T R) (eomt_X3B_22 d H T R).
Proof. exact (nsub_m comb3b comb3b_add comb3b_sub (eomn_X3Bs21 d H T R) (eomt_X3B_21 d H T R) (fun a b c i j k => eomn_X3Bt22 d H T R b a c i j k) (eomn_X3Bt22 d H T R) (X3B_norm21 d H T R) (ltac:(intros a b c i j k; c3p (eomn_X3Bt22 d H T R)))). Qed.
Lemma X3B_norm23 d H T R : eqc comb3b (eomn_X3Bs23 d H T R) (eomt_X3B_23 d H T R).
Proof. exact (nsub_m comb3b comb3b_add comb3b_sub (eomn_X3Bs22 d H T R) (eomt_X3B_22 d H T R) (fun a b c i j k => eomn_X3Bt23 d H T R a b c j i k) (eomn_X3Bt23 d H T R) (X3B_norm22 d H T R) (ltac:(intros a b c i j k; c3p (eomn_X3Bt23 d H T R)))). Qed.
Lemma X3B_norm24 d H T R : eqc comb3b (eomn_X3Bs24 d H T R) (eomt_X3B_24 d H T R).
Proof. exact (nadd_p comb3b comb3b_add comb3b_sub (eomn_X3Bs23 d H T R) (eomt_X3B_23 d H T R) (fun a b c i j k => eomn_X3Bt24 d H T R b a c j i k) (eomn_X3Bt24 d H T R) (X3B_norm23 d H T R) (ltac:(intros a b c i j k; c3p (eomn_X3Bt24 d H T R)))). Qed.
Lemma X3B_norm25 d H T R : eqc comb3b (eomn_X3Bs25 d H T R) (eomt_X3B_25 d H T R).
Proof. exact (nadd_p comb3b comb3b_add comb3b_sub (eomn_X3Bs24 d H T R) (eomt_X3B_24 d H T R) (fun a b c i j k => eomn_X3Bt25 d H T R b a c j i k) (eomn_X3Bt25 d H T R) (X3B_norm24 d H T R) (ltac:(intros a b c i j k; c3p (eomn_X3Bt25 d H T R)))). Qed.
Lemma X3B_norm26 d H T R : eqc comb3b (eomn_X3Bs26 d H T R) (eomt_X3B_26 d H T R).
Proof. exact (nsub_m comb3b comb3b_add comb3b_sub (eomn_X3Bs25 d H T R) (eomt_X3B_25 d H T R) (fun a b c i j k => eomn_X3Bt26 d H T R a b c j i k) (eomn_X3Bt26 d H T R) (X3B_norm25 d H T R) (ltac:(intros a b c i j k; c3p (eomn_X3Bt26 d H T R)))). Qed.
Lemma X3B_norm27 d H T R : eqc comb3b (eomn_X3Bs27 d H T R) (eomt_X3B_27 d H T R).
Proof. exact (nsub_p comb3b comb3b_add comb3b_sub (eomn_X3Bs26 d H T R) (eomt_X3B_26 d H T R) (fun a b c i j k => eomn_X3Bt27 d H T R a b c i j k) (eomn_X3Bt27 d H T R) (X3B_norm26 d H T R) (ltac:(intros a b c i j k; c3p (eomn_X3Bt27 d H T R)))). Qed.
Lemma X3B_norm28 d H T R : eqc comb3b (eomn_X3Bs28 d H T R) (eomt_X3B_28 d H T R).
Proof. exact (nadd_m comb3b comb3b_add comb3b_sub (eomn_X3Bs27 d H T R) (eomt_X3B_27 d H T R) (fun a b c i j k => eomn_X3Bt28 d H T R b a c i j k) (eomn_X3Bt28 d H T R) (X3B_norm27 d H T R) (ltac:(intros a b c i j k; c3p (eomn_X3Bt28 d H T R)))). Qed.
Lemma X3B_norm29 d H T R : eqc comb3b (eomn_X3Bs29 d H T R) (eomt_X3B_29 d H T R).
Proof. exact (nadd_p comb3b comb3b_add comb3b_sub (eomn_X3Bs28 d H T R) (eomt_X3B_28 d H T R) (fun a b c i j k => eomn_X3Bt29 d H T R a b c i j k) (eomn_X3Bt29 d H T R) (X3B_norm28 d H T R) (ltac:(intros a b c i j k; c3p (eomn_X3Bt29 d H T R)))). Qed.
Lemma X3B_norm30 d H T R : eqc comb3b (eomn_X3Bs30 d H T R) (eomt_X3B_30 d H T R).
Proof. exact (nadd_p comb3b comb3b_add comb3b_sub (eomn_X3Bs29 d H T R) (eomt_X3B_29 d H T R) (fun a b c i j k => eomn_X3Bt30 d H T R a b c i j k) (eomn_X3Bt30 d H T R) (X3B_norm29 d H T R) (ltac:(intros a b c i j k; c3p (eomn_X3Bt30 d H T R)))). Qed.
Lemma X3B_norm31 d H T R : eqc comb3b (eomn_X3Bs31 d H T R) (eomt_X3B_31 d H T R).
Proof. exact (nadd_p comb3b comb3b_add comb3b_sub (eomn_X3Bs30 d H T R) (eomt_X3B_30 d H T R) (fun a b c i j k => eomn_X3Bt31 d H T R a b c i j k) (eomn_X3Bt31 d H T R) (X3B_norm30 d H T R) (ltac:(intros a b c i j k; c3p (eomn_X3Bt31 d H T R)))). Qed.
Lemma X3B_norm32 d H T R : eqc comb3b (eomn_X3Bs32 d H T R) (eomt_X3B_32 d H T R).
Proof. exact (nadd_p comb3b comb3b_add comb3b_sub (eomn_X3Bs31 d H T R) (eomt_X3B_31 d H T R) (fun a b c i j k => eomn_X3Bt32 d H T R a b c i j k) (eomn_X3Bt32 d H T R) (X3B_norm31 d H T R) (ltac:(intros a b c i j k; c3p (eomn_X3Bt32 d H T R)))). Qed.
Lemma X3B_norm33 d H T R : eqc comb3b (eomn_X3Bs33 d H T R) (eomt_X3B_33 d H T R).
Proof. exact (nadd_p comb3b comb3b_add comb3b_sub (eomn_X3Bs32 d H T R) (eomt_X3B_32 d H T R) (fun a b c i j k => eomn_X3Bt33 d H T R a b c i j k) (eomn_X3Bt33 d H T R) (X3B_norm32 d H T R) (ltac:(intros a b c i j k; c3p (eomn_X3Bt33 d H T R)))). Qed.
Lemma X3B_norm34 d H T R : eqc comb3b (eomn_X3Bs34 d H T R) (eomt_X3B_34 d H T R).
Proof. exact (nadd_p comb3b comb3b_add comb3b_sub (eomn_X3Bs33 d H T R) (eomt_X3B_33 d H T R) (fun a b c i j k => eomn_X3Bt34 d H T R a b c i j k) (eomn_X3Bt34 d H T R) (X3B_norm33 d H T R) (ltac:(intros a b c i j k; c3p (eomn_X3Bt34 d H T R)))). Qed.
Lemma X3B_norm35 d H T R : eqc comb3b (eomn_X3Bs35 d H T R) (eomt_X3B_35 d H T R).
Proof. exact (nadd_p comb3b comb3b_add comb3b_sub (eomn_X3Bs34 d H T R) (eomt_X3B_34 d H T R) (fun a b c i j k => eomn_X3Bt35 d H T R a b c i j k) (eomn_X3Bt35 d H T R) (X3B_norm34 d H T R) (ltac:(intros a b c i j k; c3p (eomn_X3Bt35 d H T R)))). Qed.
Lemma X3B_norm36 d H T R : eqc comb3b (eomn_X3Bs36 d H T R) (eomt_X3B_36 d H T R).
Proof. exact (nadd_p comb3b comb3b_add comb3b_sub (eomn_X3Bs35 d H T R) (eomt_X3B_35 d H T R) (fun a b c i j k => eomn_X3Bt36 d H T R a b c i j k) (eomn_X3Bt36 d H T R) (X3B_norm35 d H T R) (ltac:(intros a b c i j k; c3p (eomn_X3Bt36 d H T R)))). Qed.
Lemma X3B_norm37 d H T R : eqc comb3b (eomn_X3Bs37 d H T R) (eomt_X3B_37 d H T R).
Proof. exact (nadd_p comb3b comb3b_add comb3b_sub (eomn_X3Bs36 d H T R) (eomt_X3B_36 d H T R) (fun a b c i j k => eomn_X3Bt37 d H T R a b c i j k) (eomn_X3Bt37 d H T R) (X3B_norm36 d H T R) (ltac:(intros a b c i j k; c3p (eomn_X3Bt37 d H T R)))). Qed.
Lemma X3B_norm38 d H T R : eqc comb3b (eomn_X3Bs38 d H T R) (eomt_X3B_38 d H T R).
Proof. exact (nsub_m comb3b comb3b_add comb3b_sub (eomn_X3Bs37 d H T R) (eomt_X3B_37 d H T R) (fun a b c i j k => eomn_X3Bt38 d H T R b a c i j k) (eomn_X3Bt38 d H T R) (X3B_norm37 d H T R) (ltac:(intros a b c i j k; c3p (eomn_X3Bt38 d H T R)))). Qed.
Lemma X3B_norm39 d H T R : eqc comb3b (eomn_X3Bs39 d H T R) (eomt_X3B_39 d H T R).
Proof. exact (nsub_m comb3b comb3b_add comb3b_sub (eomn_X3Bs38 d H T R) (eomt_X3B_38 d H T R) (fun a b c i j k => eomn_X3Bt39 d H T R a b c j i k) (eomn_X3Bt39 d H T R) (X3B_norm38 d H T R) (ltac:(intros a b c i j k; c3p (eomn_X3Bt39 d H T R)))). Qed.
Lemma X3B_norm d H T R : eqc comb3b (eomn_X3Bf d H T R) (eomt_X3B_39 d H T R).
Proof. intros a b c i j k. rewrite <- X3B_norm39. unfold eomn_X3Bf. generalize (eomn_X3Bs39 d H T R) (eomn_X3Bu d H T R). intros F G. cbv [comb3b]. ring. Qed.
Lemma X3C_norm0 d H T R : eqc comb3c (eomn_X3Cs0 d H T R) (eomt_X3C d H T R).
Proof. exact (nstart_p comb3c (fun a b c i j k => eomn_X3Ct0 d H T R a b c i j k) (eomn_X3Ct0 d H T R) (ltac:(intros a b c i j k; c3p (eomn_X3Ct0 d H T R)))). Qed.
Lemma X3C_norm1 d H T R : eqc comb3c (eomn_X3Cs1 d H T R) (eomt_X3C_1 d H T R).
Proof. exact (nadd_p comb3c comb3c_add comb3c_sub (eomn_X3Cs0 d H T R) (eomt_X3C d H T R) (fun a b c i j k => eomn_X3Ct1 d H T R a b c i j k) (eomn_X3Ct1 d H T R) (X3C_norm0 d H T R) (ltac:(intros a b c i j k; c3p (eomn_X3Ct1 d H T R)))). Qed.
Lemma X3C_norm2 d H T R : eqc comb3c (eomn_X3Cs2 d H T R) (eomt_X3C_2 d H T R).
Proof. exact (nsub_p comb3c comb3c_add comb3c_sub (eomn_X3Cs1 d H T R) (eomt_X3C_1 d H T R) (fun a b c i j k => eomn_X3Ct2 d H T R a b c i j k) (eomn_X3Ct2 d H T R) (X3C_norm1 d H T R) (ltac:(intros a b c i j k; c3p (eomn_X3Ct2 d H T R)))). Qed.
Lemma X3C_norm3 d H T R : eqc comb3c (eomn_X3Cs3 d H T R) (eomt_X3C_3 d H T R).
Proof. exact (nsub_p comb3c comb3c_add comb3c_sub (eomn_X3Cs2 d H T R) (eomt_X3C_2 d H T R) (fun a b c i j k => eomn_X3Ct3 d H T R a b c i j k) (eomn_X3Ct3 d H T R) (X3C_norm2 d H T R) (ltac:(intros a b c i j k; c3p (eomn_X3Ct3 d H T R)))). Qed.
Lemma X3C_norm4 d H T R : eqc comb3c (eomn_X3Cs4 d H T R) (eomt_X3C_4 d H T R).
Proof. exact (nadd_p comb3c comb3c_add comb3c_sub (eomn_X3Cs3 d H T R) (eomt_X3C_3 d H T R) (fun a b c i j k => eomn_X3Ct4 d H T R a c b i k j) (eomn_X3Ct4 d H T R) (X3C_norm3 d H T R) (ltac:(intros a b c i j k; c3p (eomn_X3Ct4 d H T R)))). Qed.
Lemma X3C_norm5 d H T R : eqc comb3c (eomn_X3Cs5 d H T R) (eomt_X3C_5 d H T R).
Proof. exact (nadd_p comb3c comb3c_add comb3c_sub (eomn_X3Cs4 d H T R) (eomt_X3C_4 d H T R) (fun a b c i j k => eomn_X3Ct5 d H T R a c b i k j) (eomn_X3Ct5 d H T R) (X3C_norm4 d H T R) (ltac:(intros a b c i j k; c3p (eomn_X3Ct5 d H T R)))). Qed.
Lemma X3C_norm6 d H T R : eqc comb3c (eomn_X3Cs6 d H T R) (eomt_X3C_6 d H T R).
Proof. exact (nsub_p comb3c comb3c_add comb3c_sub (eomn_X3Cs5 d H T R) (eomt_X3C_5 d H T R) (fun a b c i j k => eomn_X3Ct6 d H T R a c b i k j) (eomn_X3Ct6 d H T R) (X3C_norm5 d H T R) (ltac:(intros a b c i j k; c3p (eomn_X3Ct6 d H T R)))). Qed.
Lemma X3C_norm7 d H T R : eqc comb3c (eomn_X3Cs7 d H T R) (eomt_X3C_7 d H T R).
Proof. exact (nsub_p comb3c comb3c_add comb3c_sub (eomn_X3Cs6 d H T R) (eomt_X3C_6 d H T R) (fun a b c i j k => eomn_X3Ct7 d H T R a c b i k j) (eomn_X3Ct7 d H T R) (X3C_norm6 d H T R) (ltac:(intros a b c i j k; c3p (eomn_X3Ct7 d H T R)))). Qed.
Lemma X3C_norm8 d H T R : eqc comb3c (eomn_X3Cs8 d H T R) (eomt_X3C_8 d H T R).
Proof. exact (nadd_p comb3c comb3c_add comb3c_sub (eomn_X3Cs7 d H T R) (eomt_X3C_7 d H T R) (fun a b c i j k => eomn_X3Ct8 d H T R a b c i j k) (eomn_X3Ct8 d H T R) (X3C_norm7 d H T R) (ltac:(intros a b c i j k; c3p (eomn_X3Ct8 d H T R)))). Qed.
Lemma X3C_norm9 d H T R : eqc comb3c (eomn_X3Cs9 d H T R) (eomt_X3C_9 d H T R).
Proof. exact (nadd_p comb3c comb3c_add comb3c_sub (eomn_X3Cs8 d H T R) (eomt_X3C_8 d H T R) (fun a b c i j k => eomn_X3Ct9 d H T R a b c i j k) (eomn_X3Ct9 d H T R) (X3C_norm8 d H T R) (ltac:(intros a b c i j k; c3p (eomn_X3Ct9 d H T R)))). Qed.
Lemma X3C_norm10 d H T R : eqc comb3c (eomn_X3Cs10 d H T R) (eomt_X3C_10 d H T R).
Proof. exact (nsub_p comb3c comb3c_add comb3c_sub (eomn_X3Cs9 d H T R) (eomt_X3C_9 d H T R) (fun a b c i j k => eomn_X3Ct10 d H T R a b c i j k) (eomn_X3Ct10 d H T R) (X3C_norm9 d H T R) (ltac:(intros a b c i j k; c3p (eomn_X3Ct10 d H T R)))). Qed.
Lemma X3C_norm11 d H T R : eqc comb3c (eomn_X3Cs11 d H T R) (eomt_X3C_11 d H T R).
Proof. exact (nsub_p comb3c comb3c_add comb3c_sub (eomn_X3Cs10 d H T R) (eomt_X3C_10 d H T R) (fun a b c i j k => eomn_X3Ct11 d H T R a b c i j k) (eomn_X3Ct11 d H T R) (X3C_norm10 d H T R) (ltac:(intros a b c i j k; c3p (eomn_X3Ct11 d H T R)))). Qed.
Lemma X3C_norm12 d H T R : eqc comb3c (eomn_X3Cs12 d H T R) (eomt_X3C_12 d H T R).
Proof. exact (nadd_p comb3c comb3c_add comb3c_sub (eomn_X3Cs11 d H T R) (eomt_X3C_11 d H T R) (fun a b c i j k => eomn_X3Ct12 d H T R a b c i j k) (eomn_X3Ct12 d H T R) (X3C_norm11 d H T R) (ltac:(intros a b c i j k; c3p (eomn_X3Ct12 d H T R)))). Qed.
Lemma X3C_norm13 d H T R : eqc comb3c (eomn_X3Cs13 d H T R) (eomt_X3C_13 d H T R).
Proof. exact (nadd_p comb3c comb3c_add comb3c_sub (eomn_X3Cs12 d H T R) (eomt_X3C_12 d H T R) (fun a b c i j k => eomn_X3Ct13 d H T R a b c i j k) (eomn_X3Ct13 d H T R) (X3C_norm12 d H T R) (ltac:(intros a b c i j k; c3p (eomn_X3Ct13 d H T R)))). Qed.
Lemma X3C_norm14 d H T R : eqc comb3c (eomn_X3Cs14 d H T R) (eomt_X3C_14 d H T R).
Proof. exact (nsub_p comb3c comb3c_add comb3c_sub (eomn_X3Cs13 d H T R) (eomt_X3C_13 d H T R) (fun a b c i j k => eomn_X3Ct14 d H T R a b c i j k) (eomn_X3Ct14 d H T R) (X3C_norm13 d H T R) (ltac:(intros a b c i j k; c3p (eomn_X3Ct14 d H T R)))). Qed.
Lemma X3C_norm15 d H T R : eqc comb3c (eomn_X3Cs15 d H T R) (eomt_X3C_15 d H T R).
Proof. exact (nsub_p comb3c comb3c_add comb3c_sub (eomn_X3Cs14 d H T R) (eomt_X3C_14 d H T R) (fun a b c i j k => eomn_X3Ct15 d H T R a b c i j k) (eomn_X3Ct15 d H T R) (X3C_norm14 d H T R) (ltac:(intros a b c i j k; c3p (eomn_X3Ct15 d H T R)))). Qed.
Lemma X3C_norm16 d H T R : eqc comb3c (eomn_X3Cs16 d H T R) (eomt_X3C_16 d H T R).
Proof. exact (nadd_p comb3c comb3c_add comb3c_sub (eomn_X3Cs15 d H T R) (eomt_X3C_15 d H T R) (fun a b c i j k => eomn_X3Ct16 d H T R a b c i j k) (eomn_X3Ct16 d H T R) (X3C_norm15 d H T R) (ltac:(intros a b c i j k; c3p (eomn_X3Ct16 d H T R)))). Qed.
Lemma X3C_norm17 d H T R : eqc comb3c (eomn_X3Cs17 d H T R) (eomt_X3C_17 d H T R).
Proof. exact (nadd_m comb3c comb3c_add comb3c_sub (eomn_X3Cs16 d H T R) (eomt_X3C_16 d H T R) (fun a b c i j k => eomn_X3Ct17 d H T R a b c i k j) (eomn_X3Ct17 d H T R) (X3C_norm16 d H T R) (ltac:(intros a b c i j k; c3p (eomn_X3Ct17 d H T R)))). Qed.
Lemma X3C_norm18 d H T R : eqc comb3c (eomn_X3Cs18 d H T R) (eomt_X3C_18 d H T R).
Proof. exact (nadd_p comb3c comb3c_add comb3c_sub (eomn_X3Cs17 d H T R) (eomt_X3C_17 d H T R) (fun a b c i j k => eomn_X3Ct18 d H T R a b c i j k) (eomn_X3Ct18 d H T R) (X3C_norm17 d H T R) (ltac:(intros a b c i j k; c3p (eomn_X3Ct18 d H T R)))). Qed.
Lemma X3C_norm19 d H T R : eqc comb3c (eomn_X3Cs19 d H T R) (eomt_X3C_19 d H T R).
Proof. exact (nadd_m comb3c comb3c_add comb3c_sub (eomn_X3Cs18 d H T R) (eomt_X3C_18 d H T R) (fun a b c i j k => eomn_X3Ct19 d H T R a c b i j k) (eomn_X3Ct19 d H T R) (X3C_norm18 d H T R) (ltac:(intros a b c i j k; c3p (eomn_X3Ct19 d H T R)))). Qed.
Lemma X3C_norm20 d H T R : eqc comb3c (eomn_X3Cs20 d H T R) (eomt_X3C_20 d H T R).
Proof. exact (nadd_p comb3c comb3c_add comb3c_sub (eomn_X3Cs19 d H T R) (eomt_X3C_19 d H T R) (fun a b c i j k => eomn_X3Ct20 d H T R a b c i j k) (eomn_X3Ct20 d H T R) (X3C_norm19 d H T R) (ltac:(intros a b c i j k; c3p (eomn_X3Ct20 d H T R)))). Qed.
Lemma X3C_norm21 d H T R : eqc comb3c (eomn_X3Cs21 d H T R) (eomt_X3C_21 d H T R).
Proof. exact (nadd_p comb3c comb3c_add comb3c_sub (eomn_X3Cs20 d H T R) (eomt_X3C_20 d H T R) (fun a b c i j k => eomn_X3Ct21 d H T R a b c i j k) (eomn_X3Ct21 d H T R) (X3C_norm20 d H T R) (ltac:(intros a b c i j k; c3p (eomn_X3Ct21 d H T R)))). Qed.
Lemma X3C_norm22 d H T R : eqc comb3c (eomn_X3Cs22 d H T R) (eomt_X3C_22 d H T R).
Proof. exact (nsub_p comb3c comb3c_add comb3c_sub (eomn_X3Cs21 d H T R) (eomt_X3C_21 d H T R) (fun a b c i j k => eomn_X3Ct22 d H T R a b c i j k) (eomn_X3Ct22 d H T R) (X3C_norm21 d H T R) (ltac:(intros a b c i j k; c3p (eomn_X3Ct22 d H T R)))). Qed.
Lemma X3C_norm23 d H T R : eqc comb3c (eomn_X3Cs23 d H T R) (eomt_X3C_23 d H T R).
Proof. exact (nsub_p comb3c comb3c_add comb3c_sub (eomn_X3Cs22 d H T R) (eomt_X3C_22 d H T R) (fun a b c i j k => eomn_X3Ct23 d H T R a b c i j k) (eomn_X3Ct23 d H T R) (X3C_norm22 d H T R) (ltac:(intros a b c i j k; c3p (eomn_X3Ct23 d H T R)))). Qed.
Lemma X3C_norm24 d H T R : eqc comb3c (eomn_X3Cs24 d H T R) (eomt_X3C_24 d H T R).
Proof. exact (nadd_p comb3c comb3c_add comb3c_sub (eomn_X3Cs23 d H T R) (eomt_X3C_23 d H T R) (fun a b c i j k => eomn_X3Ct24 d H T R a b c i j k) (eomn_X3Ct24 d H T R) (X3C_norm23 d H T R) (ltac:(intros a b c i j k; c3p (eomn_X3Ct24 d H T R)))). Qed.
Lemma X3C_norm25 d H T R : eqc comb3c (eomn_X3Cs25 d H T R) (eomt_X3C_25 d H T R).
Proof. exact (nadd_p comb3c comb3c_add comb3c_sub (eomn_X3Cs24 d H T R) (eomt_X3C_24 d H T R) (fun a b c i j k => eomn_X3Ct25 d H T R a b c i j k) (eomn_X3Ct25 d H T R) (X3C_norm24 d H T R) (ltac:(intros a b c i j k; c3p (eomn_X3Ct25 d H T R)))). Qed.
Lemma X3C_norm26 d H T R : eqc comb3c (eomn_X3Cs26 d H T R) (eomt_X3C_26 d H T R).
Proof. exact (nsub_p comb3c comb3c_add comb3c_sub (eomn_X3Cs25 d H T R) (eomt_X3C_25 d H T R) (fun a b c i j k => eomn_X3Ct26 d H T R a b c i j k) (eomn_X3Ct26 d H T R) (X3C_norm25 d H T R) (ltac:(intros a b c i j k; c3p (eomn_X3Ct26 d H T R)))). Qed.
Lemma X3C_norm27 d H T R : eqc comb3c (eomn_X3Cs27 d H T R) (eomt_X3C_27 d H T R).
Proof. exact (nsub_p comb3c comb3c_add comb3c_sub (eomn_X3Cs26 d H T R) (eomt_X3C_26 d H T R) (fun a b c i j k => eomn_X3Ct27 d H T R a b c i j k) (eomn_X3Ct27 d H T R) (X3C_norm26 d H T R) (ltac:(intros a b c i j k; c3p (eomn_X3Ct27 d H T R)))). Qed.
Lemma X3C_norm28 d H T R : eqc comb3c (eomn_X3Cs28 d H T R) (eomt_X3C_28 d H T R).
Proof. exact (nadd_p comb3c comb3c_add comb3c_sub (eomn_X3Cs27 d H T R) (eomt_X3C_27 d H T R) (fun a b c i j k => eomn_X3Ct28 d H T R a b c i j k) (eomn_X3Ct28 d H T R) (X3C_norm27 d H T R) (ltac:(intros a b c i j k; c3p (eomn_X3Ct28 d H T R)))). Qed.
Lemma X3C_norm29 d H T R : eqc comb3c (eomn_X3Cs29 d H T R) (eomt_X3C_29 d H T R).
Proof. exact (nadd_p comb3c comb3c_add comb3c_sub (eomn_X3Cs28 d H T R) (eomt_X3C_28 d H T R) (fun a b c i j k => eomn_X3Ct29 d H T R a b c i j k) (eomn_X3Ct29 d H T R) (X3C_norm28 d H T R) (ltac:(intros a b c i j k; c3p (eomn_X3Ct29 d H T R)))). Qed.
Lemma X3C_norm30 d H T R : eqc comb3c (eomn_X3Cs30 d H T R) (eomt_X3C_30 d H T R).
Proof. exact (nadd_m comb3c comb3c_add comb3c_sub (eomn_X3Cs29 d H T R) (eomt_X3C_29 d H T R) (fun a b c i j k => eomn_X3Ct30 d H T R a b c i k j) (eomn_X3Ct30 d H T R) (X3C_norm29 d H T R) (ltac:(intros a b c i j k; c3p (eomn_X3Ct30 d H T R)))). Qed.
Lemma X3C_norm31 d H T R : eqc comb3c (eomn_X3Cs31 d H T R) (eomt_X3C_31 d H T R).
Proof. exact (nadd_p comb3c comb3c_add comb3c_sub (eomn_X3Cs30 d H T R) (eomt_X3C_30 d H T R) (fun a b c i j k => eomn_X3Ct31 d H T R a b c i j k) (eomn_X3Ct31 d H T R) (X3C_norm30 d H T R) (ltac:(intros a b c i j k; c3p (eomn_X3Ct31 d H T R)))). Qed.
Lemma X3C_norm32 d H T R : eqc comb3c (eomn_X3Cs32 d H T R) (eomt_X3C_32 d H T R).
Proof. exact (nadd_m comb3c comb3c_add comb3c_sub (eomn_X3Cs31 d H T R) (eomt_X3C_31 d H T R) (fun a b c i j k => eomn_X3Ct32 d H T R a c b i j k) (eomn_X3Ct32 d H T R) (X3C_norm31 d H T R) (ltac:(intros a b c i j k; c3p (eomn_X3Ct32 d H T R)))). Qed.
Lemma X3C_norm33 d H T R : eqc comb3c (eomn_X3Cs33 d H T R) (eomt_X3C_33 d H T R).
Proof. exact (nadd_p comb3c comb3c_add comb3c_sub (eomn_X3Cs32 d H T R) (eomt_X3C_32 d H T R) (fun a b c i j k => eomn_X3Ct33 d H T R a b c i j k) (eomn_X3Ct33 d H T R) (X3C_norm32 d H T R) (ltac:(intros a b c i j k; c3p (eomn_X3Ct33 d H T R)))). Qed.
Lemma X3C_norm34 d H T R : eqc comb3c (eomn_X3Cs34 d H T R) (eomt_X3C_34 d H T R).
Proof. exact (nadd_p comb3c comb3c_add comb3c_sub (eomn_X3Cs33 d H T R) (eomt_X3C_33 d H T R) (fun a b c i j k => eomn_X3Ct34 d H T R a c b i k j) (eomn_X3Ct34 d H T R) (X3C_norm33 d H T R) (ltac:(intros a b c i j k; c3p (eomn_X3Ct34 d H T R)))). Qed.
Lemma X3C_norm35 d H T R : eqc comb3c (eomn_X3Cs35 d H T R) (eomt_X3C_35 d H T R).
Proof. exact (nadd_p comb3c comb3c_add comb3c_sub (eomn_X3Cs34 d H T R) (eomt_X3C_34 d H T R) (fun a b c i j k => eomn_X3Ct35 d H T R a c b i k j) (eomn_X3Ct35 d H T R) (X3C_norm34 d H T R) (ltac:(intros a b c i j k; c3p (eomn_X3Ct35 d H T R)))). Qed.
Lemma X3C_norm36 d H T R : eqc comb3c (eomn_X3Cs36 d H T R) (eomt_X3C_36 d H T R).
Proof. exact (nadd_p comb3c comb3c_add comb3c_sub (eomn_X3Cs35 d H T R) (eomt_X3C_35 d H T R) (fun a b c i j k => eomn_X3Ct36 d H T R a b c i j k) (eomn_X3Ct36 d H T R) (X3C_norm35 d H T R) (ltac:(intros a b c i j k; c3p (eomn_X3Ct36 d H T R)))). Qed.
Lemma X3C_norm37 d H T R : eqc comb3c (eomn_X3Cs37 d H T R) (eomt_X3C_37 d H T R).
Proof. exact (nadd_p comb3c comb3c_add comb3c_sub (eomn_X3Cs36 d H T R) (eomt_X3C_36 d H T R) (fun a b c i j k => eomn_X3Ct37 d H T R a b c i j k) (eomn_X3Ct37 d H T R) (X3C_norm36 d H T R) (ltac:(intros a b c i j k; c3p (eomn_X3Ct37 d H T R)))). Qed.
Lemma X3C_norm38 d H T R : eqc comb3c (eomn_X3Cs38 d H T R) (eomt_X3C_38 d H T R).
Proof. exact (nsub_p comb3c comb3c_add comb3c_sub (eomn_X3Cs37 d H T R) (eomt_X3C_37 d H T R) (fun a b c i j k => eomn_X3Ct38 d H T R a b c i j k) (eomn_X3Ct38 d H T R) (X3C_norm37 d H T R) (ltac:(intros a b c i j k; c3p (eomn_X3Ct38 d H T R)))). Qed.
Lemma X3C_norm39 d H T R : eqc comb3c (eomn_X3Cs39 d H T R) (eomt_X3C_39 d H T R).
Proof. exact (nsub_p comb3c comb3c_add comb3c_sub (eomn_X3Cs38 d H T R) (eomt_X3C_38 d H T R) (fun a b c i j k => eomn_X3Ct39 d H T R a b c i j k) (eomn_X3Ct39 d H T R) (X3C_norm38 d H T R) (ltac:(intros a b c i j k; c3p (eomn_X3Ct39 d H T R)))). Qed.
Lemma X3C_norm d H T R : eqc comb3c (eomn_X3Cf d H T R) (eomt_X3C_39 d H T R).
Proof. intros a b c i j k. rewrite <- X3C_norm39. unfold eomn_X3Cf. generalize (eomn_X3Cs39 d H T R) (eomn_X3Cu d H T R). intros F G. cbv [comb3c]. ring. Qed.
Lemma X3D_norm0 d H T R : eqc comb3 (eomn_X3Ds0 d H T R) (eomt_X3D d H T R).
Proof. exact (nstart_p comb3 (fun a b c i j k => eomn_X3Dt0 d H T R b a c j i k) (eomn_X3Dt0 d H T R) (ltac:(intros a b c i j k; c3p (eomn_X3Dt0 d H T R)))). Qed.
Lemma X3D_norm1 d H T R : eqc comb3 (eomn_X3Ds1 d H T R) (eomt_X3D_1 d H T R).
Proof. exact (nadd_p comb3 comb3_add comb3_sub (eomn_X3Ds0 d H T R) (eomt_X3D d H T R) (fun a b c i j k => eomn_X3Dt1 d H T R b a c j i k) (eomn_X3Dt1 d H T R) (X3D_norm0 d H T R) (ltac:(intros a b c i j k; c3p (eomn_X3Dt1 d H T R)))). Qed.
Lemma X3D_norm2 d H T R : eqc comb3 (eomn_X3Ds2 d H T R) (eomt_X3D_2 d H T R).
Proof. exact (nsub_p comb3 comb3_add comb3_sub (eomn_X3Ds1 d H T R) (eomt_X3D_1 d H T R) (fun a b c i j k => eomn_X3Dt2 d H T R b a c j i k) (eomn_X3Dt2 d H T R) (X3D_norm1 d H T R) (ltac:(intros a b c i j k; c3p (eomn_X3Dt2 d H T R)))). Qed.
Lemma X3D_norm3 d H T R : eqc comb3 (eomn_X3Ds3 d H T R) (eomt_X3D_3 d H T R).
Proof. exact (nsub_p comb3 comb3_add comb3_sub (eomn_X3Ds2 d H T R) (eomt_X3D_2 d H T R) (fun a b c i j k => eomn_X3Dt3 d H T R b a c j i k) (eomn_X3Dt3 d H T R) (X3D_norm2 d H T R) (ltac:(intros a b c i j k; c3p (eomn_X3Dt3 d H T R)))). Qed.
Lemma X3D_norm4 d H T R : eqc comb3 (eomn_X3Ds4 d H T R) (eomt_X3D_4 d H T R).
Proof. exact (nadd_m comb3 comb3_add comb3_sub (eomn_X3Ds3 d H T R) (eomt_X3D_3 d H T R) (fun a b c i j k => eomn_X3Dt4 d H T R a c b i j k) (eomn_X3Dt4 d H T R) (X3D_norm3 d H T R) (ltac:(intros a b c i j k; c3p (eomn_X3Dt4 d H T R)))). Qed.
Lemma X3D_norm5 d H T R : eqc comb3 (eomn_X3Ds5 d H T R) (eomt_X3D_5 d H T R).
Proof. exact (nsub_m comb3 comb3_add comb3_sub (eomn_X3Ds4 d H T R) (eomt_X3D_4 d H T R) (fun a b c i j k => eomn_X3Dt5 d H T R a b c i k j) (eomn_X3Dt5 d H T R) (X3D_norm4 d H T R) (ltac:(intros a b c i j k; c3p (eomn_X3Dt5 d H T R)))). Qed.
Lemma X3D_norm6 d H T R : eqc comb3 (eomn_X3Ds6 d H T R) (eomt_X3D_6 d H T R).
Proof. exact (nadd_p comb3 comb3_add comb3_sub (eomn_X3Ds5 d H T R) (eomt_X3D_5 d H T R) (fun a b c i j k => eomn_X3Dt6 d H T R a b c i j k) (eomn_X3Dt6 d H T R) (X3D_norm5 d H T R) (ltac:(intros a b c i j k; c3p (eomn_X3Dt6 d H T R)))). Qed.
Lemma X3D_norm7 d H T R : eqc comb3 (eomn_X3Ds7 d H T R) (eomt_X3D_7 d H T R).
Proof. exact (nadd_p comb3 comb3_add comb3_sub (eomn_X3Ds6 d H T R) (eomt_X3D_6 d H T R) (fun a b c i j k => eomn_X3Dt7 d H T R a b c i j k) (eomn_X3Dt7 d H T R) (X3D_norm6 d H T R) (ltac:(intros a b c i j k; c3p (eomn_X3Dt7 d H T R)))). Qed.
Lemma X3D_norm8 d H T R : eqc comb3 (eomn_X3Ds8 d H T R) (eomt_X3D_8 d H T R).
Proof. exact (nadd_p comb3 comb3_add comb3_sub (eomn_X3Ds7 d H T R) (eomt_X3D_7 d H T R) (fun a b c i j k => eomn_X3Dt8 d H T R b a c j i k) (eomn_X3Dt8 d H T R) (X3D_norm7 d H T R) (ltac:(intros a b c i j k; c3p (eomn_X3Dt8 d H T R)))). Qed.
Lemma X3D_norm9 d H T R : eqc comb3 (eomn_X3Ds9 d H T R) (eomt_X3D_9 d H T R).
Proof. exact (nadd_p comb3 comb3_add comb3_sub (eomn_X3Ds8 d H T R) (eomt_X3D_8 d H T R) (fun a b c i j k => eomn_X3Dt9 d H T R b a c j i k) (eomn_X3Dt9 d H T R) (X3D_norm8 d H T R) (ltac:(intros a b c i j k; c3p (eomn_X3Dt9 d H T R)))). Qed.
Lemma X3D_norm10 d H T R : eqc comb3 (eomn_X3Ds10 d H T R) (eomt_X3D_10 d H T R).
Proof. exact (nsub_m comb3 comb3_add comb3_sub (eomn_X3Ds9 d H T R) (eomt_X3D_9 d H T R) (fun a b c i j k => eomn_X3Dt10 d H T R a b c i k j) (eomn_X3Dt10 d H T R) (X3D_norm9 d H T R) (ltac:(intros a b c i j k; c3p (eomn_X3Dt10 d H T R)))). Qed.
Lemma X3D_norm11 d H T R : eqc comb3 (eomn_X3Ds11 d H T R) (eomt_X3D_11 d H T R).
Proof. exact (nadd_m comb3 comb3_add comb3_sub (eomn_X3Ds10 d H T R) (eomt_X3D_10 d H T R) (fun a b c i j k => eomn_X3Dt11 d H T R a c b i j k) (eomn_X3Dt11 d H T R) (X3D_norm10 d H T R) (ltac:(intros a b c i j k; c3p (eomn_X3Dt11 d H T R)))). Qed.
Lemma X3D_norm12 d H T R : eqc comb3 (eomn_X3Ds12 d H T R) (eomt_X3D_12 d H T R).
Proof. exact (nadd_p comb3 comb3_add comb3_sub (eomn_X3Ds11 d H T R) (eomt_X3D_11 d H T R) (fun a b c i j k => eomn_X3Dt12 d H T R a b c i j k) (eomn_X3Dt12 d H T R) (X3D_norm11 d H T R) (ltac:(intros a b c i j k; c3p (eomn_X3Dt12 d H T R)))). Qed.
Lemma X3D_norm13 d H T R : eqc comb3 (eomn_X3Ds13 d H T R) (eomt_X3D_13 d H T R).
Proof. exact (nadd_p comb3 comb3_add comb3_sub (eomn_X3Ds12 d H T R) (eomt_X3D_12 d H T R) (fun a b c i j k => eomn_X3Dt13 d H T R a b c i j k) (eomn_X3Dt13 d H T R) (X3D_norm12 d H T R) (ltac:(intros a b c i j k; c3p (eomn_X3Dt13 d H T R)))). Qed.
Lemma X3D_norm14 d H T R : eqc comb3 (eomn_X3Ds14 d H T R) (eomt_X3D_14 d H T R).
Proof. exact (nadd_p comb3 comb3_add comb3_sub (eomn_X3Ds13 d H T R) (eomt_X3D_13 d H T R) (fun a b c i j k => eomn_X3Dt14 d H T R a b c i j k) (eomn_X3Dt14 d H T R) (X3D_norm13 d H T R) (ltac:(intros a b c i j k; c3p (eomn_X3Dt14 d H T R)))). Qed.
Lemma X3D_norm15 d H T R : eqc comb3 (eomn_X3Ds15 d H T R) (eomt_X3D_15 d H T R).
Proof. exact (nadd_p comb3 comb3_add comb3_sub (eomn_X3Ds14 d H T R) (eomt_X3D_14 d H T R) (fun a b c i j k => eomn_X3Dt15 d H T R a b c i j k) (eomn_X3Dt15 d H T R) (X3D_norm14 d H T R) (ltac:(intros a b c i j k; c3p (eomn_X3Dt15 d H T R)))). Qed.
Lemma X3D_norm d H T R : eqc comb3 (eomn_X3Df d H T R) (eomt_X3D_15 d H T R).
Proof. intros a b c i j k. rewrite <- X3D_norm15. unfold eomn_X3Df. generalize (eomn_X3Ds15 d H T R) (eomn_X3Du d H T R). intros F G. cbv [comb3]. ring. Qed.
