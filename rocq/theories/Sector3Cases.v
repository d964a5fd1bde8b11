(** Sigma vectors of Sector3Model.v evaluated in Q, for the cases shown beside theorems (proof support). *)
From Coq Require Import Reals Arith NArith List Bool Lia Lra QArith Qreals ZArith.
From Verif Require Import RSum IntegralsModel TensorObjs TensorAlg TensorSpec CcsdModel CcsdReify FockSpec FockCcSpec FockTerms FockCheck FockSectorTools QEval Sector3Model Sector3Spec SectorIptReify SectorEatReify SectorDipqReify SectorDeaqReify SectorSftReify.
Import ListNotations.
Local Open Scope Q_scope.
Notation all n f := (forallb f (seq 0 n)).
Definition ipt_real (y_a : nat -> Q) (y_aa : nat -> nat -> nat -> Q) (y_ab : nat -> nat -> nat -> Q) (y_aaa : nat -> nat -> nat -> nat -> nat -> Q) (y_aab : nat -> nat -> nat -> nat -> nat -> Q) (y_abb : nat -> nat -> nat -> nat -> nat -> Q) : iptv := mkIpt (fun p => Q2R (y_a p)) (fun p q r => Q2R (y_aa p q r)) (fun p q r => Q2R (y_ab p q r)) (fun p q r s t => Q2R (y_aaa p q r s t)) (fun p q r s t => Q2R (y_aab p q r s t)) (fun p q r s t => Q2R (y_abb p q r s t)).
Definition ipt_check (d : dims) (I : qints) (T : qamps) (y_a : nat -> Q) (y_aa : nat -> nat -> nat -> Q) (y_ab : nat -> nat -> nat -> Q) (y_aaa : nat -> nat -> nat -> nat -> nat -> Q) (y_aab : nat -> nat -> nat -> nat -> nat -> Q) (y_abb : nat -> nat -> nat -> nat -> nat -> Q) (w : Q) : bool :=
  let ok e l y := Qeq_bool (denq (fdim d) (qenv (qarrays (noa d) (nob d) I T ++ [qp1 y_a; qp3 y_aa; qp3 y_ab; qp5 y_aaa; qp5 y_aab; qp5 y_abb])) (retag (to_sector 6) e) (venv l)) (w * y) in
  all (noa d) (fun p => ok (s_ipt_a 10 0)%nat [p] (y_a p))
  && all (noa d) (fun p => all (nua d) (fun q => all (noa d) (fun r => ok (s_ipt_aa 10 0 1 2)%nat [p; q; r] (y_aa p q r))))
  && all (noa d) (fun p => all (nub d) (fun q => all (nob d) (fun r => ok (s_ipt_ab 10 0 1 2)%nat [p; q; r] (y_ab p q r))))
  && all (noa d) (fun p => all (nua d) (fun q => all (nua d) (fun r => all (noa d) (fun s => all (noa d) (fun t => ok (s_ipt_aaa 10 0 1 2 3 4)%nat [p; q; r; s; t] (y_aaa p q r s t))))))
  && all (noa d) (fun p => all (nua d) (fun q => all (nub d) (fun r => all (noa d) (fun s => all (nob d) (fun t => ok (s_ipt_aab 10 0 1 2 3 4)%nat [p; q; r; s; t] (y_aab p q r s t))))))
  && all (noa d) (fun p => all (nub d) (fun q => all (nub d) (fun r => all (nob d) (fun s => all (nob d) (fun t => ok (s_ipt_abb 10 0 1 2 3 4)%nat [p; q; r; s; t] (y_abb p q r s t)))))).
Lemma ipt_case d I T y_a y_aa y_ab y_aaa y_aab y_abb w : ipt_check d I T y_a y_aa y_ab y_aaa y_aab y_abb w = true -> let H := fock_ints (noa d) (nob d) (real I) in let Y := ipt_real y_a y_aa y_ab y_aaa y_aab y_abb in ipt_root d (ipt_HR d (hbar_ccsd d H (reala T)) (reala T) Y) Y (Q2R w).
Proof.
  unfold ipt_check. cbv zeta. rewrite !andb_true_iff. intros (((((K0 & K1) & K2) & K3) & K4) & K5).
  assert (HV : forall e v, den (fdim d) (tenv (jac_arrays d (fock_ints (noa d) (nob d) (real I)) (reala T) (reala T) ++ [ap1 (ipt_a (ipt_real y_a y_aa y_ab y_aaa y_aab y_abb)); ap3 (ipt_aa (ipt_real y_a y_aa y_ab y_aaa y_aab y_abb)); ap3 (ipt_ab (ipt_real y_a y_aa y_ab y_aaa y_aab y_abb)); ap5 (ipt_aaa (ipt_real y_a y_aa y_ab y_aaa y_aab y_abb)); ap5 (ipt_aab (ipt_real y_a y_aa y_ab y_aaa y_aab y_abb)); ap5 (ipt_abb (ipt_real y_a y_aa y_ab y_aaa y_aab y_abb))])) e v = Q2R (denq (fdim d) (qenv (qarrays (noa d) (nob d) I T ++ [qp1 y_a; qp3 y_aa; qp3 y_ab; qp5 y_aaa; qp5 y_aab; qp5 y_abb])) (retag (to_sector 6) e) v)).
  { intros e v. refine (qvalue d I T [ap1 (ipt_a (ipt_real y_a y_aa y_ab y_aaa y_aab y_abb)); ap3 (ipt_aa (ipt_real y_a y_aa y_ab y_aaa y_aab y_abb)); ap3 (ipt_ab (ipt_real y_a y_aa y_ab y_aaa y_aab y_abb)); ap5 (ipt_aaa (ipt_real y_a y_aa y_ab y_aaa y_aab y_abb)); ap5 (ipt_aab (ipt_real y_a y_aa y_ab y_aaa y_aab y_abb)); ap5 (ipt_abb (ipt_real y_a y_aa y_ab y_aaa y_aab y_abb))] [qp1 y_a; qp3 y_aa; qp3 y_ab; qp5 y_aaa; qp5 y_aab; qp5 y_abb] e v _ _); [|cbn [length]; lia]. repeat (apply Forall2_cons; [intros; cbn [ipt_real ipt_a ipt_aa ipt_ab ipt_aaa ipt_aab ipt_abb]; first [apply qp1_ok|apply qp2_ok'|apply qp3_ok|apply qp4_ok'|apply qp5_ok|apply qp6_ok]|]). apply Forall2_nil. }
  unfold ipt_root. repeat match goal with |- _ /\ _ => split end.
  - intros p Hp. apply all_ok with (k := p) in K0; [|exact Hp]. apply Qeq_bool_eq in K0. etransitivity; [|etransitivity; [exact (Qeq_eqR _ _ K0)|apply Q2R_mult]]. rewrite <- HV. reflexivity.
  - intros p q r Hp Hq Hr. apply all_ok with (k := p) in K1; [|exact Hp]. apply all_ok with (k := q) in K1; [|exact Hq]. apply all_ok with (k := r) in K1; [|exact Hr]. apply Qeq_bool_eq in K1. etransitivity; [|etransitivity; [exact (Qeq_eqR _ _ K1)|apply Q2R_mult]]. rewrite <- HV. reflexivity.
  - intros p q r Hp Hq Hr. apply all_ok with (k := p) in K2; [|exact Hp]. apply all_ok with (k := q) in K2; [|exact Hq]. apply all_ok with (k := r) in K2; [|exact Hr]. apply Qeq_bool_eq in K2. etransitivity; [|etransitivity; [exact (Qeq_eqR _ _ K2)|apply Q2R_mult]]. rewrite <- HV. reflexivity.
  - intros p q r s t Hp Hq Hr Hs Ht. apply all_ok with (k := p) in K3; [|exact Hp]. apply all_ok with (k := q) in K3; [|exact Hq]. apply all_ok with (k := r) in K3; [|exact Hr]. apply all_ok with (k := s) in K3; [|exact Hs]. apply all_ok with (k := t) in K3; [|exact Ht]. apply Qeq_bool_eq in K3. etransitivity; [|etransitivity; [exact (Qeq_eqR _ _ K3)|apply Q2R_mult]]. rewrite <- HV. reflexivity.
  - intros p q r s t Hp Hq Hr Hs Ht. apply all_ok with (k := p) in K4; [|exact Hp]. apply all_ok with (k := q) in K4; [|exact Hq]. apply all_ok with (k := r) in K4; [|exact Hr]. apply all_ok with (k := s) in K4; [|exact Hs]. apply all_ok with (k := t) in K4; [|exact Ht]. apply Qeq_bool_eq in K4. etransitivity; [|etransitivity; [exact (Qeq_eqR _ _ K4)|apply Q2R_mult]]. rewrite <- HV. reflexivity.
  - intros p q r s t Hp Hq Hr Hs Ht. apply all_ok with (k := p) in K5; [|exact Hp]. apply all_ok with (k := q) in K5; [|exact Hq]. apply all_ok with (k := r) in K5; [|exact Hr]. apply all_ok with (k := s) in K5; [|exact Hs]. apply all_ok with (k := t) in K5; [|exact Ht]. apply Qeq_bool_eq in K5. etransitivity; [|etransitivity; [exact (Qeq_eqR _ _ K5)|apply Q2R_mult]]. rewrite <- HV. reflexivity.
Qed.
Definition eat_real (y_a : nat -> Q) (y_aa : nat -> nat -> nat -> Q) (y_ab : nat -> nat -> nat -> Q) (y_aaa : nat -> nat -> nat -> nat -> nat -> Q) (y_aab : nat -> nat -> nat -> nat -> nat -> Q) (y_abb : nat -> nat -> nat -> nat -> nat -> Q) : eatv := mkEat (fun p => Q2R (y_a p)) (fun p q r => Q2R (y_aa p q r)) (fun p q r => Q2R (y_ab p q r)) (fun p q r s t => Q2R (y_aaa p q r s t)) (fun p q r s t => Q2R (y_aab p q r s t)) (fun p q r s t => Q2R (y_abb p q r s t)).
Definition eat_check (d : dims) (I : qints) (T : qamps) (y_a : nat -> Q) (y_aa : nat -> nat -> nat -> Q) (y_ab : nat -> nat -> nat -> Q) (y_aaa : nat -> nat -> nat -> nat -> nat -> Q) (y_aab : nat -> nat -> nat -> nat -> nat -> Q) (y_abb : nat -> nat -> nat -> nat -> nat -> Q) (w : Q) : bool :=
  let ok e l y := Qeq_bool (denq (fdim d) (qenv (qarrays (noa d) (nob d) I T ++ [qp1 y_a; qp3 y_aa; qp3 y_ab; qp5 y_aaa; qp5 y_aab; qp5 y_abb])) (retag (to_sector 6) e) (venv l)) (w * y) in
  all (nua d) (fun p => ok (s_eat_a 10 0)%nat [p] (y_a p))
  && all (nua d) (fun p => all (nua d) (fun q => all (noa d) (fun r => ok (s_eat_aa 10 0 1 2)%nat [p; q; r] (y_aa p q r))))
  && all (nua d) (fun p => all (nub d) (fun q => all (nob d) (fun r => ok (s_eat_ab 10 0 1 2)%nat [p; q; r] (y_ab p q r))))
  && all (nua d) (fun p => all (nua d) (fun q => all (nua d) (fun r => all (noa d) (fun s => all (noa d) (fun t => ok (s_eat_aaa 10 0 1 2 3 4)%nat [p; q; r; s; t] (y_aaa p q r s t))))))
  && all (nua d) (fun p => all (nua d) (fun q => all (nub d) (fun r => all (noa d) (fun s => all (nob d) (fun t => ok (s_eat_aab 10 0 1 2 3 4)%nat [p; q; r; s; t] (y_aab p q r s t))))))
  && all (nua d) (fun p => all (nub d) (fun q => all (nub d) (fun r => all (nob d) (fun s => all (nob d) (fun t => ok (s_eat_abb 10 0 1 2 3 4)%nat [p; q; r; s; t] (y_abb p q r s t)))))).
Lemma eat_case d I T y_a y_aa y_ab y_aaa y_aab y_abb w : eat_check d I T y_a y_aa y_ab y_aaa y_aab y_abb w = true -> let H := fock_ints (noa d) (nob d) (real I) in let Y := eat_real y_a y_aa y_ab y_aaa y_aab y_abb in eat_root d (eat_HR d (hbar_ccsd d H (reala T)) (reala T) Y) Y (Q2R w).
Proof.
  unfold eat_check. cbv zeta. rewrite !andb_true_iff. intros (((((K0 & K1) & K2) & K3) & K4) & K5).
  assert (HV : forall e v, den (fdim d) (tenv (jac_arrays d (fock_ints (noa d) (nob d) (real I)) (reala T) (reala T) ++ [ap1 (eat_a (eat_real y_a y_aa y_ab y_aaa y_aab y_abb)); ap3 (eat_aa (eat_real y_a y_aa y_ab y_aaa y_aab y_abb)); ap3 (eat_ab (eat_real y_a y_aa y_ab y_aaa y_aab y_abb)); ap5 (eat_aaa (eat_real y_a y_aa y_ab y_aaa y_aab y_abb)); ap5 (eat_aab (eat_real y_a y_aa y_ab y_aaa y_aab y_abb)); ap5 (eat_abb (eat_real y_a y_aa y_ab y_aaa y_aab y_abb))])) e v = Q2R (denq (fdim d) (qenv (qarrays (noa d) (nob d) I T ++ [qp1 y_a; qp3 y_aa; qp3 y_ab; qp5 y_aaa; qp5 y_aab; qp5 y_abb])) (retag (to_sector 6) e) v)).
  { intros e v. refine (qvalue d I T [ap1 (eat_a (eat_real y_a y_aa y_ab y_aaa y_aab y_abb)); ap3 (eat_aa (eat_real y_a y_aa y_ab y_aaa y_aab y_abb)); ap3 (eat_ab (eat_real y_a y_aa y_ab y_aaa y_aab y_abb)); ap5 (eat_aaa (eat_real y_a y_aa y_ab y_aaa y_aab y_abb)); ap5 (eat_aab (eat_real y_a y_aa y_ab y_aaa y_aab y_abb)); ap5 (eat_abb (eat_real y_a y_aa y_ab y_aaa y_aab y_abb))] [qp1 y_a; qp3 y_aa; qp3 y_ab; qp5 y_aaa; qp5 y_aab; qp5 y_abb] e v _ _); [|cbn [length]; lia]. repeat (apply Forall2_cons; [intros; cbn [eat_real eat_a eat_aa eat_ab eat_aaa eat_aab eat_abb]; first [apply qp1_ok|apply qp2_ok'|apply qp3_ok|apply qp4_ok'|apply qp5_ok|apply qp6_ok]|]). apply Forall2_nil. }
  unfold eat_root. repeat match goal with |- _ /\ _ => split end.
  - intros p Hp. apply all_ok with (k := p) in K0; [|exact Hp]. apply Qeq_bool_eq in K0. etransitivity; [|etransitivity; [exact (Qeq_eqR _ _ K0)|apply Q2R_mult]]. rewrite <- HV. reflexivity.
  - intros p q r Hp Hq Hr. apply all_ok with (k := p) in K1; [|exact Hp]. apply all_ok with (k := q) in K1; [|exact Hq]. apply all_ok with (k := r) in K1; [|exact Hr]. apply Qeq_bool_eq in K1. etransitivity; [|etransitivity; [exact (Qeq_eqR _ _ K1)|apply Q2R_mult]]. rewrite <- HV. reflexivity.
  - intros p q r Hp Hq Hr. apply all_ok with (k := p) in K2; [|exact Hp]. apply all_ok with (k := q) in K2; [|exact Hq]. apply all_ok with (k := r) in K2; [|exact Hr]. apply Qeq_bool_eq in K2. etransitivity; [|etransitivity; [exact (Qeq_eqR _ _ K2)|apply Q2R_mult]]. rewrite <- HV. reflexivity.
  - intros p q r s t Hp Hq Hr Hs Ht. apply all_ok with (k := p) in K3; [|exact Hp]. apply all_ok with (k := q) in K3; [|exact Hq]. apply all_ok with (k := r) in K3; [|exact Hr]. apply all_ok with (k := s) in K3; [|exact Hs]. apply all_ok with (k := t) in K3; [|exact Ht]. apply Qeq_bool_eq in K3. etransitivity; [|etransitivity; [exact (Qeq_eqR _ _ K3)|apply Q2R_mult]]. rewrite <- HV. reflexivity.
  - intros p q r s t Hp Hq Hr Hs Ht. apply all_ok with (k := p) in K4; [|exact Hp]. apply all_ok with (k := q) in K4; [|exact Hq]. apply all_ok with (k := r) in K4; [|exact Hr]. apply all_ok with (k := s) in K4; [|exact Hs]. apply all_ok with (k := t) in K4; [|exact Ht]. apply Qeq_bool_eq in K4. etransitivity; [|etransitivity; [exact (Qeq_eqR _ _ K4)|apply Q2R_mult]]. rewrite <- HV. reflexivity.
  - intros p q r s t Hp Hq Hr Hs Ht. apply all_ok with (k := p) in K5; [|exact Hp]. apply all_ok with (k := q) in K5; [|exact Hq]. apply all_ok with (k := r) in K5; [|exact Hr]. apply all_ok with (k := s) in K5; [|exact Hs]. apply all_ok with (k := t) in K5; [|exact Ht]. apply Qeq_bool_eq in K5. etransitivity; [|etransitivity; [exact (Qeq_eqR _ _ K5)|apply Q2R_mult]]. rewrite <- HV. reflexivity.
Qed.
Definition dipq_real (y_ab : nat -> nat -> Q) (y_aba : nat -> nat -> nat -> nat -> Q) (y_abb : nat -> nat -> nat -> nat -> Q) (y_abaa : nat -> nat -> nat -> nat -> nat -> nat -> Q) (y_abab : nat -> nat -> nat -> nat -> nat -> nat -> Q) (y_abbb : nat -> nat -> nat -> nat -> nat -> nat -> Q) : dipqv := mkDipq (fun p q => Q2R (y_ab p q)) (fun p q r s => Q2R (y_aba p q r s)) (fun p q r s => Q2R (y_abb p q r s)) (fun p q r s t u => Q2R (y_abaa p q r s t u)) (fun p q r s t u => Q2R (y_abab p q r s t u)) (fun p q r s t u => Q2R (y_abbb p q r s t u)).
Definition dipq_check (d : dims) (I : qints) (T : qamps) (y_ab : nat -> nat -> Q) (y_aba : nat -> nat -> nat -> nat -> Q) (y_abb : nat -> nat -> nat -> nat -> Q) (y_abaa : nat -> nat -> nat -> nat -> nat -> nat -> Q) (y_abab : nat -> nat -> nat -> nat -> nat -> nat -> Q) (y_abbb : nat -> nat -> nat -> nat -> nat -> nat -> Q) (w : Q) : bool :=
  let ok e l y := Qeq_bool (denq (fdim d) (qenv (qarrays (noa d) (nob d) I T ++ [qp2 y_ab; qp4 y_aba; qp4 y_abb; qp6 y_abaa; qp6 y_abab; qp6 y_abbb])) (retag (to_sector 6) e) (venv l)) (w * y) in
  all (noa d) (fun p => all (nob d) (fun q => ok (s_dipq_ab 10 0 1)%nat [p; q] (y_ab p q)))
  && all (noa d) (fun p => all (nob d) (fun q => all (nua d) (fun r => all (noa d) (fun s => ok (s_dipq_aba 10 0 1 2 3)%nat [p; q; r; s] (y_aba p q r s)))))
  && all (noa d) (fun p => all (nob d) (fun q => all (nub d) (fun r => all (nob d) (fun s => ok (s_dipq_abb 10 0 1 2 3)%nat [p; q; r; s] (y_abb p q r s)))))
  && all (noa d) (fun p => all (nob d) (fun q => all (nua d) (fun r => all (nua d) (fun s => all (noa d) (fun t => all (noa d) (fun u => ok (s_dipq_abaa 10 0 1 2 3 4 5)%nat [p; q; r; s; t; u] (y_abaa p q r s t u)))))))
  && all (noa d) (fun p => all (nob d) (fun q => all (nua d) (fun r => all (nub d) (fun s => all (noa d) (fun t => all (nob d) (fun u => ok (s_dipq_abab 10 0 1 2 3 4 5)%nat [p; q; r; s; t; u] (y_abab p q r s t u)))))))
  && all (noa d) (fun p => all (nob d) (fun q => all (nub d) (fun r => all (nub d) (fun s => all (nob d) (fun t => all (nob d) (fun u => ok (s_dipq_abbb 10 0 1 2 3 4 5)%nat [p; q; r; s; t; u] (y_abbb p q r s t u))))))).
Lemma dipq_case d I T y_ab y_aba y_abb y_abaa y_abab y_abbb w : dipq_check d I T y_ab y_aba y_abb y_abaa y_abab y_abbb w = true -> let H := fock_ints (noa d) (nob d) (real I) in let Y := dipq_real y_ab y_aba y_abb y_abaa y_abab y_abbb in dipq_root d (dipq_HR d (hbar_ccsd d H (reala T)) (reala T) Y) Y (Q2R w).
Proof.
  unfold dipq_check. cbv zeta. rewrite !andb_true_iff. intros (((((K0 & K1) & K2) & K3) & K4) & K5).
  assert (HV : forall e v, den (fdim d) (tenv (jac_arrays d (fock_ints (noa d) (nob d) (real I)) (reala T) (reala T) ++ [ap2 (dipq_ab (dipq_real y_ab y_aba y_abb y_abaa y_abab y_abbb)); ap4 (dipq_aba (dipq_real y_ab y_aba y_abb y_abaa y_abab y_abbb)); ap4 (dipq_abb (dipq_real y_ab y_aba y_abb y_abaa y_abab y_abbb)); ap6 (dipq_abaa (dipq_real y_ab y_aba y_abb y_abaa y_abab y_abbb)); ap6 (dipq_abab (dipq_real y_ab y_aba y_abb y_abaa y_abab y_abbb)); ap6 (dipq_abbb (dipq_real y_ab y_aba y_abb y_abaa y_abab y_abbb))])) e v = Q2R (denq (fdim d) (qenv (qarrays (noa d) (nob d) I T ++ [qp2 y_ab; qp4 y_aba; qp4 y_abb; qp6 y_abaa; qp6 y_abab; qp6 y_abbb])) (retag (to_sector 6) e) v)).
  { intros e v. refine (qvalue d I T [ap2 (dipq_ab (dipq_real y_ab y_aba y_abb y_abaa y_abab y_abbb)); ap4 (dipq_aba (dipq_real y_ab y_aba y_abb y_abaa y_abab y_abbb)); ap4 (dipq_abb (dipq_real y_ab y_aba y_abb y_abaa y_abab y_abbb)); ap6 (dipq_abaa (dipq_real y_ab y_aba y_abb y_abaa y_abab y_abbb)); ap6 (dipq_abab (dipq_real y_ab y_aba y_abb y_abaa y_abab y_abbb)); ap6 (dipq_abbb (dipq_real y_ab y_aba y_abb y_abaa y_abab y_abbb))] [qp2 y_ab; qp4 y_aba; qp4 y_abb; qp6 y_abaa; qp6 y_abab; qp6 y_abbb] e v _ _); [|cbn [length]; lia]. repeat (apply Forall2_cons; [intros; cbn [dipq_real dipq_ab dipq_aba dipq_abb dipq_abaa dipq_abab dipq_abbb]; first [apply qp1_ok|apply qp2_ok'|apply qp3_ok|apply qp4_ok'|apply qp5_ok|apply qp6_ok]|]). apply Forall2_nil. }
  unfold dipq_root. repeat match goal with |- _ /\ _ => split end.
  - intros p q Hp Hq. apply all_ok with (k := p) in K0; [|exact Hp]. apply all_ok with (k := q) in K0; [|exact Hq]. apply Qeq_bool_eq in K0. etransitivity; [|etransitivity; [exact (Qeq_eqR _ _ K0)|apply Q2R_mult]]. rewrite <- HV. reflexivity.
  - intros p q r s Hp Hq Hr Hs. apply all_ok with (k := p) in K1; [|exact Hp]. apply all_ok with (k := q) in K1; [|exact Hq]. apply all_ok with (k := r) in K1; [|exact Hr]. apply all_ok with (k := s) in K1; [|exact Hs]. apply Qeq_bool_eq in K1. etransitivity; [|etransitivity; [exact (Qeq_eqR _ _ K1)|apply Q2R_mult]]. rewrite <- HV. reflexivity.
  - intros p q r s Hp Hq Hr Hs. apply all_ok with (k := p) in K2; [|exact Hp]. apply all_ok with (k := q) in K2; [|exact Hq]. apply all_ok with (k := r) in K2; [|exact Hr]. apply all_ok with (k := s) in K2; [|exact Hs]. apply Qeq_bool_eq in K2. etransitivity; [|etransitivity; [exact (Qeq_eqR _ _ K2)|apply Q2R_mult]]. rewrite <- HV. reflexivity.
  - intros p q r s t u Hp Hq Hr Hs Ht Hu. apply all_ok with (k := p) in K3; [|exact Hp]. apply all_ok with (k := q) in K3; [|exact Hq]. apply all_ok with (k := r) in K3; [|exact Hr]. apply all_ok with (k := s) in K3; [|exact Hs]. apply all_ok with (k := t) in K3; [|exact Ht]. apply all_ok with (k := u) in K3; [|exact Hu]. apply Qeq_bool_eq in K3. etransitivity; [|etransitivity; [exact (Qeq_eqR _ _ K3)|apply Q2R_mult]]. rewrite <- HV. reflexivity.
  - intros p q r s t u Hp Hq Hr Hs Ht Hu. apply all_ok with (k := p) in K4; [|exact Hp]. apply all_ok with (k := q) in K4; [|exact Hq]. apply all_ok with (k := r) in K4; [|exact Hr]. apply all_ok with (k := s) in K4; [|exact Hs]. apply all_ok with (k := t) in K4; [|exact Ht]. apply all_ok with (k := u) in K4; [|exact Hu]. apply Qeq_bool_eq in K4. etransitivity; [|etransitivity; [exact (Qeq_eqR _ _ K4)|apply Q2R_mult]]. rewrite <- HV. reflexivity.
  - intros p q r s t u Hp Hq Hr Hs Ht Hu. apply all_ok with (k := p) in K5; [|exact Hp]. apply all_ok with (k := q) in K5; [|exact Hq]. apply all_ok with (k := r) in K5; [|exact Hr]. apply all_ok with (k := s) in K5; [|exact Hs]. apply all_ok with (k := t) in K5; [|exact Ht]. apply all_ok with (k := u) in K5; [|exact Hu]. apply Qeq_bool_eq in K5. etransitivity; [|etransitivity; [exact (Qeq_eqR _ _ K5)|apply Q2R_mult]]. rewrite <- HV. reflexivity.
Qed.
Definition deaq_real (y_ab : nat -> nat -> Q) (y_aba : nat -> nat -> nat -> nat -> Q) (y_abb : nat -> nat -> nat -> nat -> Q) (y_abaa : nat -> nat -> nat -> nat -> nat -> nat -> Q) (y_abab : nat -> nat -> nat -> nat -> nat -> nat -> Q) (y_abbb : nat -> nat -> nat -> nat -> nat -> nat -> Q) : deaqv := mkDeaq (fun p q => Q2R (y_ab p q)) (fun p q r s => Q2R (y_aba p q r s)) (fun p q r s => Q2R (y_abb p q r s)) (fun p q r s t u => Q2R (y_abaa p q r s t u)) (fun p q r s t u => Q2R (y_abab p q r s t u)) (fun p q r s t u => Q2R (y_abbb p q r s t u)).
Definition deaq_check (d : dims) (I : qints) (T : qamps) (y_ab : nat -> nat -> Q) (y_aba : nat -> nat -> nat -> nat -> Q) (y_abb : nat -> nat -> nat -> nat -> Q) (y_abaa : nat -> nat -> nat -> nat -> nat -> nat -> Q) (y_abab : nat -> nat -> nat -> nat -> nat -> nat -> Q) (y_abbb : nat -> nat -> nat -> nat -> nat -> nat -> Q) (w : Q) : bool :=
  let ok e l y := Qeq_bool (denq (fdim d) (qenv (qarrays (noa d) (nob d) I T ++ [qp2 y_ab; qp4 y_aba; qp4 y_abb; qp6 y_abaa; qp6 y_abab; qp6 y_abbb])) (retag (to_sector 6) e) (venv l)) (w * y) in
  all (nua d) (fun p => all (nub d) (fun q => ok (s_deaq_ab 10 0 1)%nat [p; q] (y_ab p q)))
  && all (nua d) (fun p => all (nub d) (fun q => all (nua d) (fun r => all (noa d) (fun s => ok (s_deaq_aba 10 0 1 2 3)%nat [p; q; r; s] (y_aba p q r s)))))
  && all (nua d) (fun p => all (nub d) (fun q => all (nub d) (fun r => all (nob d) (fun s => ok (s_deaq_abb 10 0 1 2 3)%nat [p; q; r; s] (y_abb p q r s)))))
  && all (nua d) (fun p => all (nub d) (fun q => all (nua d) (fun r => all (nua d) (fun s => all (noa d) (fun t => all (noa d) (fun u => ok (s_deaq_abaa 10 0 1 2 3 4 5)%nat [p; q; r; s; t; u] (y_abaa p q r s t u)))))))
  && all (nua d) (fun p => all (nub d) (fun q => all (nua d) (fun r => all (nub d) (fun s => all (noa d) (fun t => all (nob d) (fun u => ok (s_deaq_abab 10 0 1 2 3 4 5)%nat [p; q; r; s; t; u] (y_abab p q r s t u)))))))
  && all (nua d) (fun p => all (nub d) (fun q => all (nub d) (fun r => all (nub d) (fun s => all (nob d) (fun t => all (nob d) (fun u => ok (s_deaq_abbb 10 0 1 2 3 4 5)%nat [p; q; r; s; t; u] (y_abbb p q r s t u))))))).
Lemma deaq_case d I T y_ab y_aba y_abb y_abaa y_abab y_abbb w : deaq_check d I T y_ab y_aba y_abb y_abaa y_abab y_abbb w = true -> let H := fock_ints (noa d) (nob d) (real I) in let Y := deaq_real y_ab y_aba y_abb y_abaa y_abab y_abbb in deaq_root d (deaq_HR d (hbar_ccsd d H (reala T)) (reala T) Y) Y (Q2R w).
Proof.
  unfold deaq_check. cbv zeta. rewrite !andb_true_iff. intros (((((K0 & K1) & K2) & K3) & K4) & K5).
  assert (HV : forall e v, den (fdim d) (tenv (jac_arrays d (fock_ints (noa d) (nob d) (real I)) (reala T) (reala T) ++ [ap2 (deaq_ab (deaq_real y_ab y_aba y_abb y_abaa y_abab y_abbb)); ap4 (deaq_aba (deaq_real y_ab y_aba y_abb y_abaa y_abab y_abbb)); ap4 (deaq_abb (deaq_real y_ab y_aba y_abb y_abaa y_abab y_abbb)); ap6 (deaq_abaa (deaq_real y_ab y_aba y_abb y_abaa y_abab y_abbb)); ap6 (deaq_abab (deaq_real y_ab y_aba y_abb y_abaa y_abab y_abbb)); ap6 (deaq_abbb (deaq_real y_ab y_aba y_abb y_abaa y_abab y_abbb))])) e v = Q2R (denq (fdim d) (qenv (qarrays (noa d) (nob d) I T ++ [qp2 y_ab; qp4 y_aba; qp4 y_abb; qp6 y_abaa; qp6 y_abab; qp6 y_abbb])) (retag (to_sector 6) e) v)).
  { intros e v. refine (qvalue d I T [ap2 (deaq_ab (deaq_real y_ab y_aba y_abb y_abaa y_abab y_abbb)); ap4 (deaq_aba (deaq_real y_ab y_aba y_abb y_abaa y_abab y_abbb)); ap4 (deaq_abb (deaq_real y_ab y_aba y_abb y_abaa y_abab y_abbb)); ap6 (deaq_abaa (deaq_real y_ab y_aba y_abb y_abaa y_abab y_abbb)); ap6 (deaq_abab (deaq_real y_ab y_aba y_abb y_abaa y_abab y_abbb)); ap6 (deaq_abbb (deaq_real y_ab y_aba y_abb y_abaa y_abab y_abbb))] [qp2 y_ab; qp4 y_aba; qp4 y_abb; qp6 y_abaa; qp6 y_abab; qp6 y_abbb] e v _ _); [|cbn [length]; lia]. repeat (apply Forall2_cons; [intros; cbn [deaq_real deaq_ab deaq_aba deaq_abb deaq_abaa deaq_abab deaq_abbb]; first [apply qp1_ok|apply qp2_ok'|apply qp3_ok|apply qp4_ok'|apply qp5_ok|apply qp6_ok]|]). apply Forall2_nil. }
  unfold deaq_root. repeat match goal with |- _ /\ _ => split end.
  - intros p q Hp Hq. apply all_ok with (k := p) in K0; [|exact Hp]. apply all_ok with (k := q) in K0; [|exact Hq]. apply Qeq_bool_eq in K0. etransitivity; [|etransitivity; [exact (Qeq_eqR _ _ K0)|apply Q2R_mult]]. rewrite <- HV. reflexivity.
  - intros p q r s Hp Hq Hr Hs. apply all_ok with (k := p) in K1; [|exact Hp]. apply all_ok with (k := q) in K1; [|exact Hq]. apply all_ok with (k := r) in K1; [|exact Hr]. apply all_ok with (k := s) in K1; [|exact Hs]. apply Qeq_bool_eq in K1. etransitivity; [|etransitivity; [exact (Qeq_eqR _ _ K1)|apply Q2R_mult]]. rewrite <- HV. reflexivity.
  - intros p q r s Hp Hq Hr Hs. apply all_ok with (k := p) in K2; [|exact Hp]. apply all_ok with (k := q) in K2; [|exact Hq]. apply all_ok with (k := r) in K2; [|exact Hr]. apply all_ok with (k := s) in K2; [|exact Hs]. apply Qeq_bool_eq in K2. etransitivity; [|etransitivity; [exact (Qeq_eqR _ _ K2)|apply Q2R_mult]]. rewrite <- HV. reflexivity.
  - intros p q r s t u Hp Hq Hr Hs Ht Hu. apply all_ok with (k := p) in K3; [|exact Hp]. apply all_ok with (k := q) in K3; [|exact Hq]. apply all_ok with (k := r) in K3; [|exact Hr]. apply all_ok with (k := s) in K3; [|exact Hs]. apply all_ok with (k := t) in K3; [|exact Ht]. apply all_ok with (k := u) in K3; [|exact Hu]. apply Qeq_bool_eq in K3. etransitivity; [|etransitivity; [exact (Qeq_eqR _ _ K3)|apply Q2R_mult]]. rewrite <- HV. reflexivity.
  - intros p q r s t u Hp Hq Hr Hs Ht Hu. apply all_ok with (k := p) in K4; [|exact Hp]. apply all_ok with (k := q) in K4; [|exact Hq]. apply all_ok with (k := r) in K4; [|exact Hr]. apply all_ok with (k := s) in K4; [|exact Hs]. apply all_ok with (k := t) in K4; [|exact Ht]. apply all_ok with (k := u) in K4; [|exact Hu]. apply Qeq_bool_eq in K4. etransitivity; [|etransitivity; [exact (Qeq_eqR _ _ K4)|apply Q2R_mult]]. rewrite <- HV. reflexivity.
  - intros p q r s t u Hp Hq Hr Hs Ht Hu. apply all_ok with (k := p) in K5; [|exact Hp]. apply all_ok with (k := q) in K5; [|exact Hq]. apply all_ok with (k := r) in K5; [|exact Hr]. apply all_ok with (k := s) in K5; [|exact Hs]. apply all_ok with (k := t) in K5; [|exact Ht]. apply all_ok with (k := u) in K5; [|exact Hu]. apply Qeq_bool_eq in K5. etransitivity; [|etransitivity; [exact (Qeq_eqR _ _ K5)|apply Q2R_mult]]. rewrite <- HV. reflexivity.
Qed.
Definition sft_real (y_b : nat -> nat -> Q) (y_ab : nat -> nat -> nat -> nat -> Q) (y_bb : nat -> nat -> nat -> nat -> Q) (y_aab : nat -> nat -> nat -> nat -> nat -> nat -> Q) (y_abb : nat -> nat -> nat -> nat -> nat -> nat -> Q) (y_bbb : nat -> nat -> nat -> nat -> nat -> nat -> Q) : sftv := mkSft (fun p q => Q2R (y_b p q)) (fun p q r s => Q2R (y_ab p q r s)) (fun p q r s => Q2R (y_bb p q r s)) (fun p q r s t u => Q2R (y_aab p q r s t u)) (fun p q r s t u => Q2R (y_abb p q r s t u)) (fun p q r s t u => Q2R (y_bbb p q r s t u)).
Definition sft_check (d : dims) (I : qints) (T : qamps) (y_b : nat -> nat -> Q) (y_ab : nat -> nat -> nat -> nat -> Q) (y_bb : nat -> nat -> nat -> nat -> Q) (y_aab : nat -> nat -> nat -> nat -> nat -> nat -> Q) (y_abb : nat -> nat -> nat -> nat -> nat -> nat -> Q) (y_bbb : nat -> nat -> nat -> nat -> nat -> nat -> Q) (w : Q) : bool :=
  let ok e l y := Qeq_bool (denq (fdim d) (qenv (qarrays (noa d) (nob d) I T ++ [qp2 y_b; qp4 y_ab; qp4 y_bb; qp6 y_aab; qp6 y_abb; qp6 y_bbb])) (retag (to_sector 6) e) (venv l)) (w * y) in
  all (nub d) (fun p => all (noa d) (fun q => ok (s_sft_b 10 0 1)%nat [p; q] (y_b p q)))
  && all (nua d) (fun p => all (nub d) (fun q => all (noa d) (fun r => all (noa d) (fun s => ok (s_sft_ab 10 0 1 2 3)%nat [p; q; r; s] (y_ab p q r s)))))
  && all (nub d) (fun p => all (nub d) (fun q => all (nob d) (fun r => all (noa d) (fun s => ok (s_sft_bb 10 0 1 2 3)%nat [p; q; r; s] (y_bb p q r s)))))
  && all (nua d) (fun p => all (nua d) (fun q => all (nub d) (fun r => all (noa d) (fun s => all (noa d) (fun t => all (noa d) (fun u => ok (s_sft_aab 10 0 1 2 3 4 5)%nat [p; q; r; s; t; u] (y_aab p q r s t u)))))))
  && all (nua d) (fun p => all (nub d) (fun q => all (nub d) (fun r => all (noa d) (fun s => all (nob d) (fun t => all (noa d) (fun u => ok (s_sft_abb 10 0 1 2 3 4 5)%nat [p; q; r; s; t; u] (y_abb p q r s t u)))))))
  && all (nub d) (fun p => all (nub d) (fun q => all (nub d) (fun r => all (nob d) (fun s => all (nob d) (fun t => all (noa d) (fun u => ok (s_sft_bbb 10 0 1 2 3 4 5)%nat [p; q; r; s; t; u] (y_bbb p q r s t u))))))).
Lemma sft_case d I T y_b y_ab y_bb y_aab y_abb y_bbb w : sft_check d I T y_b y_ab y_bb y_aab y_abb y_bbb w = true -> let H := fock_ints (noa d) (nob d) (real I) in let Y := sft_real y_b y_ab y_bb y_aab y_abb y_bbb in sft_root d (sft_HR d (hbar_ccsd d H (reala T)) (reala T) Y) Y (Q2R w).
Proof.
  unfold sft_check. cbv zeta. rewrite !andb_true_iff. intros (((((K0 & K1) & K2) & K3) & K4) & K5).
  assert (HV : forall e v, den (fdim d) (tenv (jac_arrays d (fock_ints (noa d) (nob d) (real I)) (reala T) (reala T) ++ [ap2 (sft_b (sft_real y_b y_ab y_bb y_aab y_abb y_bbb)); ap4 (sft_ab (sft_real y_b y_ab y_bb y_aab y_abb y_bbb)); ap4 (sft_bb (sft_real y_b y_ab y_bb y_aab y_abb y_bbb)); ap6 (sft_aab (sft_real y_b y_ab y_bb y_aab y_abb y_bbb)); ap6 (sft_abb (sft_real y_b y_ab y_bb y_aab y_abb y_bbb)); ap6 (sft_bbb (sft_real y_b y_ab y_bb y_aab y_abb y_bbb))])) e v = Q2R (denq (fdim d) (qenv (qarrays (noa d) (nob d) I T ++ [qp2 y_b; qp4 y_ab; qp4 y_bb; qp6 y_aab; qp6 y_abb; qp6 y_bbb])) (retag (to_sector 6) e) v)).
  { intros e v. refine (qvalue d I T [ap2 (sft_b (sft_real y_b y_ab y_bb y_aab y_abb y_bbb)); ap4 (sft_ab (sft_real y_b y_ab y_bb y_aab y_abb y_bbb)); ap4 (sft_bb (sft_real y_b y_ab y_bb y_aab y_abb y_bbb)); ap6 (sft_aab (sft_real y_b y_ab y_bb y_aab y_abb y_bbb)); ap6 (sft_abb (sft_real y_b y_ab y_bb y_aab y_abb y_bbb)); ap6 (sft_bbb (sft_real y_b y_ab y_bb y_aab y_abb y_bbb))] [qp2 y_b; qp4 y_ab; qp4 y_bb; qp6 y_aab; qp6 y_abb; qp6 y_bbb] e v _ _); [|cbn [length]; lia]. repeat (apply Forall2_cons; [intros; cbn [sft_real sft_b sft_ab sft_bb sft_aab sft_abb sft_bbb]; first [apply qp1_ok|apply qp2_ok'|apply qp3_ok|apply qp4_ok'|apply qp5_ok|apply qp6_ok]|]). apply Forall2_nil. }
  unfold sft_root. repeat match goal with |- _ /\ _ => split end.
  - intros p q Hp Hq. apply all_ok with (k := p) in K0; [|exact Hp]. apply all_ok with (k := q) in K0; [|exact Hq]. apply Qeq_bool_eq in K0. etransitivity; [|etransitivity; [exact (Qeq_eqR _ _ K0)|apply Q2R_mult]]. rewrite <- HV. reflexivity.
  - intros p q r s Hp Hq Hr Hs. apply all_ok with (k := p) in K1; [|exact Hp]. apply all_ok with (k := q) in K1; [|exact Hq]. apply all_ok with (k := r) in K1; [|exact Hr]. apply all_ok with (k := s) in K1; [|exact Hs]. apply Qeq_bool_eq in K1. etransitivity; [|etransitivity; [exact (Qeq_eqR _ _ K1)|apply Q2R_mult]]. rewrite <- HV. reflexivity.
  - intros p q r s Hp Hq Hr Hs. apply all_ok with (k := p) in K2; [|exact Hp]. apply all_ok with (k := q) in K2; [|exact Hq]. apply all_ok with (k := r) in K2; [|exact Hr]. apply all_ok with (k := s) in K2; [|exact Hs]. apply Qeq_bool_eq in K2. etransitivity; [|etransitivity; [exact (Qeq_eqR _ _ K2)|apply Q2R_mult]]. rewrite <- HV. reflexivity.
  - intros p q r s t u Hp Hq Hr Hs Ht Hu. apply all_ok with (k := p) in K3; [|exact Hp]. apply all_ok with (k := q) in K3; [|exact Hq]. apply all_ok with (k := r) in K3; [|exact Hr]. apply all_ok with (k := s) in K3; [|exact Hs]. apply all_ok with (k := t) in K3; [|exact Ht]. apply all_ok with (k := u) in K3; [|exact Hu]. apply Qeq_bool_eq in K3. etransitivity; [|etransitivity; [exact (Qeq_eqR _ _ K3)|apply Q2R_mult]]. rewrite <- HV. reflexivity.
  - intros p q r s t u Hp Hq Hr Hs Ht Hu. apply all_ok with (k := p) in K4; [|exact Hp]. apply all_ok with (k := q) in K4; [|exact Hq]. apply all_ok with (k := r) in K4; [|exact Hr]. apply all_ok with (k := s) in K4; [|exact Hs]. apply all_ok with (k := t) in K4; [|exact Ht]. apply all_ok with (k := u) in K4; [|exact Hu]. apply Qeq_bool_eq in K4. etransitivity; [|etransitivity; [exact (Qeq_eqR _ _ K4)|apply Q2R_mult]]. rewrite <- HV. reflexivity.
  - intros p q r s t u Hp Hq Hr Hs Ht Hu. apply all_ok with (k := p) in K5; [|exact Hp]. apply all_ok with (k := q) in K5; [|exact Hq]. apply all_ok with (k := r) in K5; [|exact Hr]. apply all_ok with (k := s) in K5; [|exact Hs]. apply all_ok with (k := t) in K5; [|exact Ht]. apply all_ok with (k := u) in K5; [|exact Hu]. apply Qeq_bool_eq in K5. etransitivity; [|etransitivity; [exact (Qeq_eqR _ _ K5)|apply Q2R_mult]]. rewrite <- HV. reflexivity.
Qed.
