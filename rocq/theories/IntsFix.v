(** A Hamiltonian object whose same-spin blocks are listed redundantly (voov, ovvo, ovov, vovo, ...) is completed from nine primary blocks.
    Proof support: routines that read only primary blocks do not see the difference. *)
From Coq Require Import Reals Arith List Lra.
From Verif Require Import RSum IntegralsModel TensorObjs TensorAlg TensorSpec.
Open Scope R_scope.
Definition fix_ints (H : ints) : ints := mkInts (i_a_oo H)
  (i_a_ov H)
  (i_a_vo H)
  (i_a_vv H)
  (i_b_oo H)
  (i_b_ov H)
  (i_b_vo H)
  (i_b_vv H)
  (i_aa_oooo H)
  (i_aa_ooov H)
  (fun p q r t => - i_aa_ooov H p q t r)
  (i_aa_oovv H)
  (fun p q r t => - i_aa_vooo H q p r t)
  (fun p q r t => - i_aa_voov H q p r t)
  (fun p q r t => i_aa_voov H q p t r)
  (fun p q r t => - i_aa_vovv H q p r t)
  (i_aa_vooo H)
  (i_aa_voov H)
  (fun p q r t => - i_aa_voov H p q t r)
  (i_aa_vovv H)
  (i_aa_vvoo H)
  (i_aa_vvov H)
  (fun p q r t => - i_aa_vvov H p q t r)
  (i_aa_vvvv H)
  (i_ab_oooo H)
  (i_ab_ooov H)
  (i_ab_oovo H)
  (i_ab_oovv H)
  (i_ab_ovoo H)
  (i_ab_ovov H)
  (i_ab_ovvo H)
  (i_ab_ovvv H)
  (i_ab_vooo H)
  (i_ab_voov H)
  (i_ab_vovo H)
  (i_ab_vovv H)
  (i_ab_vvoo H)
  (i_ab_vvov H)
  (i_ab_vvvo H)
  (i_ab_vvvv H)
  (i_bb_oooo H)
  (i_bb_ooov H)
  (fun p q r t => - i_bb_ooov H p q t r)
  (i_bb_oovv H)
  (fun p q r t => - i_bb_vooo H q p r t)
  (fun p q r t => - i_bb_voov H q p r t)
  (fun p q r t => i_bb_voov H q p t r)
  (fun p q r t => - i_bb_vovv H q p r t)
  (i_bb_vooo H)
  (i_bb_voov H)
  (fun p q r t => - i_bb_voov H p q t r)
  (i_bb_vovv H)
  (i_bb_vvoo H)
  (i_bb_vvov H)
  (fun p q r t => - i_bb_vvov H p q t r)
  (i_bb_vvvv H).
Record primary_antisym (H : ints) : Prop := {
  pa_aa_oooo_12 : forall p q r t, i_aa_oooo H p q r t = - i_aa_oooo H q p r t;
  pa_aa_oooo_34 : forall p q r t, i_aa_oooo H p q r t = - i_aa_oooo H p q t r;
  pa_aa_ooov_12 : forall p q r t, i_aa_ooov H p q r t = - i_aa_ooov H q p r t;
  pa_aa_oovv_12 : forall p q r t, i_aa_oovv H p q r t = - i_aa_oovv H q p r t;
  pa_aa_oovv_34 : forall p q r t, i_aa_oovv H p q r t = - i_aa_oovv H p q t r;
  pa_aa_vooo_34 : forall p q r t, i_aa_vooo H p q r t = - i_aa_vooo H p q t r;
  pa_aa_vovv_34 : forall p q r t, i_aa_vovv H p q r t = - i_aa_vovv H p q t r;
  pa_aa_vvoo_12 : forall p q r t, i_aa_vvoo H p q r t = - i_aa_vvoo H q p r t;
  pa_aa_vvoo_34 : forall p q r t, i_aa_vvoo H p q r t = - i_aa_vvoo H p q t r;
  pa_aa_vvov_12 : forall p q r t, i_aa_vvov H p q r t = - i_aa_vvov H q p r t;
  pa_aa_vvvv_12 : forall p q r t, i_aa_vvvv H p q r t = - i_aa_vvvv H q p r t;
  pa_aa_vvvv_34 : forall p q r t, i_aa_vvvv H p q r t = - i_aa_vvvv H p q t r;
  pa_bb_oooo_12 : forall p q r t, i_bb_oooo H p q r t = - i_bb_oooo H q p r t;
  pa_bb_oooo_34 : forall p q r t, i_bb_oooo H p q r t = - i_bb_oooo H p q t r;
  pa_bb_ooov_12 : forall p q r t, i_bb_ooov H p q r t = - i_bb_ooov H q p r t;
  pa_bb_oovv_12 : forall p q r t, i_bb_oovv H p q r t = - i_bb_oovv H q p r t;
  pa_bb_oovv_34 : forall p q r t, i_bb_oovv H p q r t = - i_bb_oovv H p q t r;
  pa_bb_vooo_34 : forall p q r t, i_bb_vooo H p q r t = - i_bb_vooo H p q t r;
  pa_bb_vovv_34 : forall p q r t, i_bb_vovv H p q r t = - i_bb_vovv H p q t r;
  pa_bb_vvoo_12 : forall p q r t, i_bb_vvoo H p q r t = - i_bb_vvoo H q p r t;
  pa_bb_vvoo_34 : forall p q r t, i_bb_vvoo H p q r t = - i_bb_vvoo H p q t r;
  pa_bb_vvov_12 : forall p q r t, i_bb_vvov H p q r t = - i_bb_vvov H q p r t;
  pa_bb_vvvv_12 : forall p q r t, i_bb_vvvv H p q r t = - i_bb_vvvv H q p r t;
  pa_bb_vvvv_34 : forall p q r t, i_bb_vvvv H p q r t = - i_bb_vvvv H p q t r }.
Lemma fix_ints_antisym H : primary_antisym H -> antisym_ints (fix_ints H).
Proof.
  intros P. destruct P. constructor; intros p q r t; cbn;
    first [ ring
          | match goal with G : forall p q r t, _ = - _ |- _ => solve [pose proof (G p q r t); pose proof (G q p r t); pose proof (G p q t r); pose proof (G q p t r); lra] end ].
Qed.
