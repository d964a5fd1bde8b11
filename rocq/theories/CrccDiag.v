(** Generated by tools/gen_crdel.py: antisymmetrised Kronecker deltas and the diagonal of the triples equations at one determinant (proof support). *)
From Coq Require Import Reals Arith List Bool Lia Lra.
From Verif Require Import RSum IntegralsModel TensorObjs TensorSpec FockArrays IntsFix CcsdtModel CrccModel CrccPoly.
Local Open Scope R_scope.
Definition dlt (p a : nat) : R := if Nat.eqb p a then 1 else 0.
Definition del2 (a b p q : nat) : R := dlt p a * dlt q b - dlt p b * dlt q a.
Definition del3 (a b c p q r : nat) : R := dlt p a * dlt q b * dlt r c + dlt p b * dlt q c * dlt r a + dlt p c * dlt q a * dlt r b - dlt p b * dlt q a * dlt r c - dlt p a * dlt q c * dlt r b - dlt p c * dlt q b * dlt r a.
Lemma dlt_same a : dlt a a = 1. Proof. unfold dlt. now rewrite Nat.eqb_refl. Qed.
Lemma dlt_lt a b : (a < b)%nat -> dlt a b = 0. Proof. intros H. unfold dlt. destruct (Nat.eqb_spec a b); [lia|reflexivity]. Qed.
Lemma dlt_gt a b : (b < a)%nat -> dlt a b = 0. Proof. intros H. unfold dlt. destruct (Nat.eqb_spec a b); [lia|reflexivity]. Qed.
Lemma s1 n a g : (a < n)%nat -> sumn n (fun e => g e * dlt e a) = g a.
Proof. intros H. rewrite <- (sumn_delta_f n a g H). apply sumn_ext; intros e _. unfold dlt. destruct (Nat.eqb e a); ring. Qed.
Lemma s2 n m a b g : (a < n)%nat -> (b < m)%nat -> sumn n (fun e => sumn m (fun f => g e f * (dlt e a * dlt f b))) = g a b.
Proof. intros Ha Hb. rewrite <- (s1 n a (fun e => g e b) Ha). apply sumn_ext; intros e _. rewrite <- (s1 m b (fun f => g e f) Hb), Rmult_comm, <- sumn_scal. apply sumn_ext; intros f _. ring. Qed.
Lemma s2a n a b g : (a < n)%nat -> (b < n)%nat -> sumn n (fun e => sumn n (fun f => g e f * (dlt e a * dlt f b - dlt e b * dlt f a))) = g a b - g b a.
Proof.
  intros Ha Hb. rewrite <- (s2 n n a b g Ha Hb), <- (s2 n n b a g Hb Ha), <- sumn_minus. apply sumn_ext; intros e _. rewrite <- sumn_minus. apply sumn_ext; intros f _. ring.
Qed.
Lemma s4a M n p i a b g : (i < n)%nat -> (a < p)%nat -> (b < p)%nat ->
  sumn M (fun m => sumn n (fun u => sumn p (fun e => sumn p (fun f => g m u e f * ((dlt e a * dlt f b - dlt e b * dlt f a) * dlt u i))))) = sumn M (fun m => g m i a b - g m i b a).
Proof.
  intros Hi Ha Hb. apply sumn_ext; intros m _. rewrite <- (s1 n i (fun u => g m u a b - g m u b a) Hi). apply sumn_ext; intros u _. rewrite <- (s2a p a b (fun e f => g m u e f) Ha Hb), Rmult_comm, <- sumn_scal.
  apply sumn_ext; intros e _. rewrite <- sumn_scal. apply sumn_ext; intros f _. ring.
Qed.
Lemma s4 M n p q i a b g : (i < n)%nat -> (a < p)%nat -> (b < q)%nat ->
  sumn M (fun m => sumn n (fun u => sumn p (fun e => sumn q (fun f => g m u e f * (dlt e a * dlt f b * dlt u i))))) = sumn M (fun m => g m i a b).
Proof.
  intros Hi Ha Hb. apply sumn_ext; intros m _. rewrite <- (s1 n i (fun u => g m u a b) Hi). apply sumn_ext; intros u _. rewrite <- (s2 p q a b (fun e f => g m u e f) Ha Hb), Rmult_comm, <- sumn_scal.
  apply sumn_ext; intros e _. rewrite <- sumn_scal. apply sumn_ext; intros f _. ring.
Qed.
Lemma s4ob n M p i j w g : (i < n)%nat -> (j < n)%nat -> (w < p)%nat ->
  sumn n (fun m => sumn n (fun u => sumn M (fun e => sumn p (fun f => g m u e f * (dlt f w * (dlt m i * dlt u j - dlt m j * dlt u i)))))) = sumn M (fun e => g i j e w - g j i e w).
Proof.
  intros Hi Hj Hw. rewrite sumn_minus. rewrite <- (s2a n i j (fun m u => sumn M (fun e => g m u e w)) Hi Hj). apply sumn_ext; intros m _. apply sumn_ext; intros u _.
  cbv beta. rewrite (Rmult_comm (sumn _ _)), <- sumn_scal. apply sumn_ext; intros e _. rewrite <- (s1 p w (fun f => g m u e f) Hw), <- sumn_scal. apply sumn_ext; intros f _. ring.
Qed.
Lemma s4o n n' M p i j w g : (i < n)%nat -> (j < n')%nat -> (w < p)%nat ->
  sumn n (fun m => sumn n' (fun u => sumn M (fun e => sumn p (fun f => g m u e f * (dlt f w * (dlt m i * dlt u j)))))) = sumn M (fun e => g i j e w).
Proof.
  intros Hi Hj Hw. rewrite <- (s2 n n' i j (fun m u => sumn M (fun e => g m u e w)) Hi Hj). apply sumn_ext; intros m _. apply sumn_ext; intros u _.
  cbv beta. rewrite (Rmult_comm (sumn _ _)), <- sumn_scal. apply sumn_ext; intros e _. rewrite <- (s1 p w (fun f => g m u e f) Hw), <- sumn_scal. apply sumn_ext; intros f _. ring.
Qed.
Lemma diag_aaa d H0 H T L a b c i j k : primary_antisym H -> antisym_amps T -> (a < nua d)%nat -> (b < nua d)%nat -> (c < nua d)%nat -> (i < noa d)%nat -> (j < noa d)%nat -> (k < noa d)%nat -> (a < b)%nat -> (a < c)%nat -> (b < c)%nat -> (i < j)%nat -> (i < k)%nat -> (j < k)%nat ->
  (forall p q r s t u, x_aaa T p q r s t u = del3 a b c p q r * del3 i j k s t u) -> crdia_aaa d H T a b c i j k = - crcc_DD_aaa d H0 H T L a b c i j k.
Proof.
  intros PA AT Ha Hb Hc Hi Hj Hk Lab Lac Lbc Lij Lik Ljk Y. destruct AT as [T1 T2 T3 T4].
  assert (Zab := dlt_lt a b Lab). assert (Zba := dlt_gt b a Lab).
  assert (Zac := dlt_lt a c Lac). assert (Zca := dlt_gt c a Lac).
  assert (Zbc := dlt_lt b c Lbc). assert (Zcb := dlt_gt c b Lbc).
  assert (Zij := dlt_lt i j Lij). assert (Zji := dlt_gt j i Lij).
  assert (Zik := dlt_lt i k Lik). assert (Zki := dlt_gt k i Lik).
  assert (Zjk := dlt_lt j k Ljk). assert (Zkj := dlt_gt k j Ljk).
  assert (R0 : sumn (nua d) (fun e => (i_a_vv H a e) * (x_aaa T e b c i j k)) = i_a_vv H a a). { rewrite <- (s1 (nua d) a (fun e => i_a_vv H a e) Ha). apply sumn_ext; intros e _. rewrite Y; unfold del3, del2; rewrite ?dlt_same, ?Zab, ?Zba, ?Zac, ?Zca, ?Zbc, ?Zcb, ?Zij, ?Zji, ?Zik, ?Zki, ?Zjk, ?Zkj; ring. }
  assert (R1 : sumn (noa d) (fun m => (i_a_oo H m i) * (x_aaa T a b c m j k)) = i_a_oo H i i). { rewrite <- (s1 (noa d) i (fun m => i_a_oo H m i) Hi). apply sumn_ext; intros m _. rewrite Y; unfold del3, del2; rewrite ?dlt_same, ?Zab, ?Zba, ?Zac, ?Zca, ?Zbc, ?Zcb, ?Zij, ?Zji, ?Zik, ?Zki, ?Zjk, ?Zkj; ring. }
  assert (R2 : sumn (nua d) (fun e => (i_a_vv H b e) * (x_aaa T a e c i j k)) = i_a_vv H b b). { rewrite <- (s1 (nua d) b (fun e => i_a_vv H b e) Hb). apply sumn_ext; intros e _. rewrite Y; unfold del3, del2; rewrite ?dlt_same, ?Zab, ?Zba, ?Zac, ?Zca, ?Zbc, ?Zcb, ?Zij, ?Zji, ?Zik, ?Zki, ?Zjk, ?Zkj; ring. }
  assert (R3 : sumn (noa d) (fun m => (i_a_oo H m j) * (x_aaa T a b c i m k)) = i_a_oo H j j). { rewrite <- (s1 (noa d) j (fun m => i_a_oo H m j) Hj). apply sumn_ext; intros m _. rewrite Y; unfold del3, del2; rewrite ?dlt_same, ?Zab, ?Zba, ?Zac, ?Zca, ?Zbc, ?Zcb, ?Zij, ?Zji, ?Zik, ?Zki, ?Zjk, ?Zkj; ring. }
  assert (R4 : sumn (nua d) (fun e => (i_a_vv H c e) * (x_aaa T a b e i j k)) = i_a_vv H c c). { rewrite <- (s1 (nua d) c (fun e => i_a_vv H c e) Hc). apply sumn_ext; intros e _. rewrite Y; unfold del3, del2; rewrite ?dlt_same, ?Zab, ?Zba, ?Zac, ?Zca, ?Zbc, ?Zcb, ?Zij, ?Zji, ?Zik, ?Zki, ?Zjk, ?Zkj; ring. }
  assert (R5 : sumn (noa d) (fun m => (i_a_oo H m k) * (x_aaa T a b c i j m)) = i_a_oo H k k). { rewrite <- (s1 (noa d) k (fun m => i_a_oo H m k) Hk). apply sumn_ext; intros m _. rewrite Y; unfold del3, del2; rewrite ?dlt_same, ?Zab, ?Zba, ?Zac, ?Zca, ?Zbc, ?Zcb, ?Zij, ?Zji, ?Zik, ?Zki, ?Zjk, ?Zkj; ring. }
  assert (R6 : sumn (nua d) (fun e => sumn (nua d) (fun f => (i_aa_vvvv H a b e f) * (x_aaa T e f c i j k))) = i_aa_vvvv H a b a b - i_aa_vvvv H a b b a). { rewrite <- (s2a (nua d) a b (fun e f => i_aa_vvvv H a b e f) Ha Hb). apply sumn_ext; intros e _. apply sumn_ext; intros f _. rewrite Y; unfold del3, del2; rewrite ?dlt_same, ?Zab, ?Zba, ?Zac, ?Zca, ?Zbc, ?Zcb, ?Zij, ?Zji, ?Zik, ?Zki, ?Zjk, ?Zkj; ring. }
  assert (Q6 : i_aa_vvvv H a b a b - i_aa_vvvv H a b b a = 2 * i_aa_vvvv H a b a b) by (rewrite (pa_aa_vvvv_34 H PA a b b a); ring).
  rewrite Q6 in R6.
  assert (R7 : sumn (noa d) (fun m => sumn (noa d) (fun n => (i_aa_oooo H m n i j) * (x_aaa T a b c m n k))) = i_aa_oooo H i j i j - i_aa_oooo H j i i j). { rewrite <- (s2a (noa d) i j (fun m n => i_aa_oooo H m n i j) Hi Hj). apply sumn_ext; intros m _. apply sumn_ext; intros n _. rewrite Y; unfold del3, del2; rewrite ?dlt_same, ?Zab, ?Zba, ?Zac, ?Zca, ?Zbc, ?Zcb, ?Zij, ?Zji, ?Zik, ?Zki, ?Zjk, ?Zkj; ring. }
  assert (Q7 : i_aa_oooo H i j i j - i_aa_oooo H j i i j = 2 * i_aa_oooo H j i j i) by (rewrite (pa_aa_oooo_12 H PA i j i j), (pa_aa_oooo_34 H PA j i i j); ring).
  rewrite Q7 in R7.
  assert (R8 : sumn (nua d) (fun e => sumn (nua d) (fun f => (i_aa_vvvv H a c e f) * (x_aaa T e b f i j k))) = i_aa_vvvv H a c a c - i_aa_vvvv H a c c a). { rewrite <- (s2a (nua d) a c (fun e f => i_aa_vvvv H a c e f) Ha Hc). apply sumn_ext; intros e _. apply sumn_ext; intros f _. rewrite Y; unfold del3, del2; rewrite ?dlt_same, ?Zab, ?Zba, ?Zac, ?Zca, ?Zbc, ?Zcb, ?Zij, ?Zji, ?Zik, ?Zki, ?Zjk, ?Zkj; ring. }
  assert (Q8 : i_aa_vvvv H a c a c - i_aa_vvvv H a c c a = 2 * i_aa_vvvv H a c a c) by (rewrite (pa_aa_vvvv_34 H PA a c c a); ring).
  rewrite Q8 in R8.
  assert (R9 : sumn (noa d) (fun m => sumn (noa d) (fun n => (i_aa_oooo H m n i k) * (x_aaa T a b c m j n))) = i_aa_oooo H i k i k - i_aa_oooo H k i i k). { rewrite <- (s2a (noa d) i k (fun m n => i_aa_oooo H m n i k) Hi Hk). apply sumn_ext; intros m _. apply sumn_ext; intros n _. rewrite Y; unfold del3, del2; rewrite ?dlt_same, ?Zab, ?Zba, ?Zac, ?Zca, ?Zbc, ?Zcb, ?Zij, ?Zji, ?Zik, ?Zki, ?Zjk, ?Zkj; ring. }
  assert (Q9 : i_aa_oooo H i k i k - i_aa_oooo H k i i k = 2 * i_aa_oooo H k i k i) by (rewrite (pa_aa_oooo_12 H PA i k i k), (pa_aa_oooo_34 H PA k i i k); ring).
  rewrite Q9 in R9.
  assert (R10 : sumn (nua d) (fun e => sumn (nua d) (fun f => (i_aa_vvvv H b c e f) * (x_aaa T a e f i j k))) = i_aa_vvvv H b c b c - i_aa_vvvv H b c c b). { rewrite <- (s2a (nua d) b c (fun e f => i_aa_vvvv H b c e f) Hb Hc). apply sumn_ext; intros e _. apply sumn_ext; intros f _. rewrite Y; unfold del3, del2; rewrite ?dlt_same, ?Zab, ?Zba, ?Zac, ?Zca, ?Zbc, ?Zcb, ?Zij, ?Zji, ?Zik, ?Zki, ?Zjk, ?Zkj; ring. }
  assert (Q10 : i_aa_vvvv H b c b c - i_aa_vvvv H b c c b = 2 * i_aa_vvvv H b c b c) by (rewrite (pa_aa_vvvv_34 H PA b c c b); ring).
  rewrite Q10 in R10.
  assert (R11 : sumn (noa d) (fun m => sumn (noa d) (fun n => (i_aa_oooo H m n j k) * (x_aaa T a b c i m n))) = i_aa_oooo H j k j k - i_aa_oooo H k j j k). { rewrite <- (s2a (noa d) j k (fun m n => i_aa_oooo H m n j k) Hj Hk). apply sumn_ext; intros m _. apply sumn_ext; intros n _. rewrite Y; unfold del3, del2; rewrite ?dlt_same, ?Zab, ?Zba, ?Zac, ?Zca, ?Zbc, ?Zcb, ?Zij, ?Zji, ?Zik, ?Zki, ?Zjk, ?Zkj; ring. }
  assert (Q11 : i_aa_oooo H j k j k - i_aa_oooo H k j j k = 2 * i_aa_oooo H k j k j) by (rewrite (pa_aa_oooo_12 H PA j k j k), (pa_aa_oooo_34 H PA k j j k); ring).
  rewrite Q11 in R11.
  assert (R12 : sumn (nua d) (fun e => sumn (noa d) (fun m => (i_aa_voov H a m i e) * (x_aaa T e b c m j k))) = i_aa_voov H a i i a). { rewrite <- (s2 (nua d) (noa d) a i (fun e m => i_aa_voov H a m i e) Ha Hi). apply sumn_ext; intros e _. apply sumn_ext; intros m _. rewrite Y; unfold del3, del2; rewrite ?dlt_same, ?Zab, ?Zba, ?Zac, ?Zca, ?Zbc, ?Zcb, ?Zij, ?Zji, ?Zik, ?Zki, ?Zjk, ?Zkj; ring. }
  assert (R13 : sumn (nua d) (fun e => sumn (noa d) (fun m => (i_aa_voov H a m j e) * (x_aaa T e b c i m k))) = i_aa_voov H a j j a). { rewrite <- (s2 (nua d) (noa d) a j (fun e m => i_aa_voov H a m j e) Ha Hj). apply sumn_ext; intros e _. apply sumn_ext; intros m _. rewrite Y; unfold del3, del2; rewrite ?dlt_same, ?Zab, ?Zba, ?Zac, ?Zca, ?Zbc, ?Zcb, ?Zij, ?Zji, ?Zik, ?Zki, ?Zjk, ?Zkj; ring. }
  assert (R14 : sumn (nua d) (fun e => sumn (noa d) (fun m => (i_aa_voov H a m k e) * (x_aaa T e b c i j m))) = i_aa_voov H a k k a). { rewrite <- (s2 (nua d) (noa d) a k (fun e m => i_aa_voov H a m k e) Ha Hk). apply sumn_ext; intros e _. apply sumn_ext; intros m _. rewrite Y; unfold del3, del2; rewrite ?dlt_same, ?Zab, ?Zba, ?Zac, ?Zca, ?Zbc, ?Zcb, ?Zij, ?Zji, ?Zik, ?Zki, ?Zjk, ?Zkj; ring. }
  assert (R15 : sumn (nua d) (fun e => sumn (noa d) (fun m => (i_aa_voov H b m i e) * (x_aaa T a e c m j k))) = i_aa_voov H b i i b). { rewrite <- (s2 (nua d) (noa d) b i (fun e m => i_aa_voov H b m i e) Hb Hi). apply sumn_ext; intros e _. apply sumn_ext; intros m _. rewrite Y; unfold del3, del2; rewrite ?dlt_same, ?Zab, ?Zba, ?Zac, ?Zca, ?Zbc, ?Zcb, ?Zij, ?Zji, ?Zik, ?Zki, ?Zjk, ?Zkj; ring. }
  assert (R16 : sumn (nua d) (fun e => sumn (noa d) (fun m => (i_aa_voov H b m j e) * (x_aaa T a e c i m k))) = i_aa_voov H b j j b). { rewrite <- (s2 (nua d) (noa d) b j (fun e m => i_aa_voov H b m j e) Hb Hj). apply sumn_ext; intros e _. apply sumn_ext; intros m _. rewrite Y; unfold del3, del2; rewrite ?dlt_same, ?Zab, ?Zba, ?Zac, ?Zca, ?Zbc, ?Zcb, ?Zij, ?Zji, ?Zik, ?Zki, ?Zjk, ?Zkj; ring. }
  assert (R17 : sumn (nua d) (fun e => sumn (noa d) (fun m => (i_aa_voov H b m k e) * (x_aaa T a e c i j m))) = i_aa_voov H b k k b). { rewrite <- (s2 (nua d) (noa d) b k (fun e m => i_aa_voov H b m k e) Hb Hk). apply sumn_ext; intros e _. apply sumn_ext; intros m _. rewrite Y; unfold del3, del2; rewrite ?dlt_same, ?Zab, ?Zba, ?Zac, ?Zca, ?Zbc, ?Zcb, ?Zij, ?Zji, ?Zik, ?Zki, ?Zjk, ?Zkj; ring. }
  assert (R18 : sumn (nua d) (fun e => sumn (noa d) (fun m => (i_aa_voov H c m i e) * (x_aaa T a b e m j k))) = i_aa_voov H c i i c). { rewrite <- (s2 (nua d) (noa d) c i (fun e m => i_aa_voov H c m i e) Hc Hi). apply sumn_ext; intros e _. apply sumn_ext; intros m _. rewrite Y; unfold del3, del2; rewrite ?dlt_same, ?Zab, ?Zba, ?Zac, ?Zca, ?Zbc, ?Zcb, ?Zij, ?Zji, ?Zik, ?Zki, ?Zjk, ?Zkj; ring. }
  assert (R19 : sumn (nua d) (fun e => sumn (noa d) (fun m => (i_aa_voov H c m j e) * (x_aaa T a b e i m k))) = i_aa_voov H c j j c). { rewrite <- (s2 (nua d) (noa d) c j (fun e m => i_aa_voov H c m j e) Hc Hj). apply sumn_ext; intros e _. apply sumn_ext; intros m _. rewrite Y; unfold del3, del2; rewrite ?dlt_same, ?Zab, ?Zba, ?Zac, ?Zca, ?Zbc, ?Zcb, ?Zij, ?Zji, ?Zik, ?Zki, ?Zjk, ?Zkj; ring. }
  assert (R20 : sumn (nua d) (fun e => sumn (noa d) (fun m => (i_aa_voov H c m k e) * (x_aaa T a b e i j m))) = i_aa_voov H c k k c). { rewrite <- (s2 (nua d) (noa d) c k (fun e m => i_aa_voov H c m k e) Hc Hk). apply sumn_ext; intros e _. apply sumn_ext; intros m _. rewrite Y; unfold del3, del2; rewrite ?dlt_same, ?Zab, ?Zba, ?Zac, ?Zca, ?Zbc, ?Zcb, ?Zij, ?Zji, ?Zik, ?Zki, ?Zjk, ?Zkj; ring. }
  assert (R21 : sumn (noa d) (fun m => sumn (noa d) (fun n => sumn (nua d) (fun e => sumn (nua d) (fun f => (i_aa_oovv H m n e f) * (x_aa T a b m i) * (x_aaa T e f c n j k))))) = sumn (noa d) (fun m => i_aa_oovv H m i a b * x_aa T a b m i - i_aa_oovv H m i b a * x_aa T a b m i)). { rewrite <- (s4a (noa d) (noa d) (nua d) i a b (fun m n e f => i_aa_oovv H m n e f * x_aa T a b m i) Hi Ha Hb). apply sumn_ext; intros m _. apply sumn_ext; intros n _. apply sumn_ext; intros e _. apply sumn_ext; intros f _. rewrite Y; unfold del3, del2; rewrite ?dlt_same, ?Zab, ?Zba, ?Zac, ?Zca, ?Zbc, ?Zcb, ?Zij, ?Zji, ?Zik, ?Zki, ?Zjk, ?Zkj; ring. }
  assert (Q21 : sumn (noa d) (fun m => i_aa_oovv H m i a b * x_aa T a b m i - i_aa_oovv H m i b a * x_aa T a b m i) = 2 * sumn (noa d) (fun m => i_aa_oovv H i m a b * x_aa T a b i m)).
  { rewrite <- sumn_scal. apply sumn_ext; intros m _. rewrite (pa_aa_oovv_34 H PA m i b a), (pa_aa_oovv_12 H PA m i a b), (T2 a b m i). ring. }
  rewrite Q21 in R21.
  assert (R22 : sumn (noa d) (fun m => sumn (noa d) (fun n => sumn (nua d) (fun e => sumn (nua d) (fun f => (i_aa_oovv H m n e f) * (x_aa T e a i j) * (x_aaa T f b c m n k))))) = sumn (nua d) (fun e => i_aa_oovv H i j e a * x_aa T e a i j - i_aa_oovv H j i e a * x_aa T e a i j)). { rewrite <- (s4ob (noa d) (nua d) (nua d) i j a (fun m n e f => i_aa_oovv H m n e f * x_aa T e a i j) Hi Hj Ha). apply sumn_ext; intros m _. apply sumn_ext; intros n _. apply sumn_ext; intros e _. apply sumn_ext; intros f _. rewrite Y; unfold del3, del2; rewrite ?dlt_same, ?Zab, ?Zba, ?Zac, ?Zca, ?Zbc, ?Zcb, ?Zij, ?Zji, ?Zik, ?Zki, ?Zjk, ?Zkj; ring. }
  assert (Q22 : sumn (nua d) (fun e => i_aa_oovv H i j e a * x_aa T e a i j - i_aa_oovv H j i e a * x_aa T e a i j) = 2 * sumn (nua d) (fun e => i_aa_oovv H i j a e * x_aa T a e i j)).
  { rewrite <- sumn_scal. apply sumn_ext; intros e _. rewrite (pa_aa_oovv_12 H PA j i e a), (pa_aa_oovv_34 H PA i j e a), (T1 e a i j). ring. }
  rewrite Q22 in R22.
  assert (R23 : sumn (noa d) (fun m => sumn (noa d) (fun n => sumn (nua d) (fun e => sumn (nua d) (fun f => (i_aa_oovv H m n e f) * (x_aa T a b m j) * (x_aaa T e f c i n k))))) = sumn (noa d) (fun m => i_aa_oovv H m j a b * x_aa T a b m j - i_aa_oovv H m j b a * x_aa T a b m j)). { rewrite <- (s4a (noa d) (noa d) (nua d) j a b (fun m n e f => i_aa_oovv H m n e f * x_aa T a b m j) Hj Ha Hb). apply sumn_ext; intros m _. apply sumn_ext; intros n _. apply sumn_ext; intros e _. apply sumn_ext; intros f _. rewrite Y; unfold del3, del2; rewrite ?dlt_same, ?Zab, ?Zba, ?Zac, ?Zca, ?Zbc, ?Zcb, ?Zij, ?Zji, ?Zik, ?Zki, ?Zjk, ?Zkj; ring. }
  assert (Q23 : sumn (noa d) (fun m => i_aa_oovv H m j a b * x_aa T a b m j - i_aa_oovv H m j b a * x_aa T a b m j) = 2 * sumn (noa d) (fun m => i_aa_oovv H j m a b * x_aa T a b j m)).
  { rewrite <- sumn_scal. apply sumn_ext; intros m _. rewrite (pa_aa_oovv_34 H PA m j b a), (pa_aa_oovv_12 H PA m j a b), (T2 a b m j). ring. }
  rewrite Q23 in R23.
  assert (R24 : sumn (noa d) (fun m => sumn (noa d) (fun n => sumn (nua d) (fun e => sumn (nua d) (fun f => (i_aa_oovv H m n e f) * (x_aa T e b i j) * (x_aaa T a f c m n k))))) = sumn (nua d) (fun e => i_aa_oovv H i j e b * x_aa T e b i j - i_aa_oovv H j i e b * x_aa T e b i j)). { rewrite <- (s4ob (noa d) (nua d) (nua d) i j b (fun m n e f => i_aa_oovv H m n e f * x_aa T e b i j) Hi Hj Hb). apply sumn_ext; intros m _. apply sumn_ext; intros n _. apply sumn_ext; intros e _. apply sumn_ext; intros f _. rewrite Y; unfold del3, del2; rewrite ?dlt_same, ?Zab, ?Zba, ?Zac, ?Zca, ?Zbc, ?Zcb, ?Zij, ?Zji, ?Zik, ?Zki, ?Zjk, ?Zkj; ring. }
  assert (Q24 : sumn (nua d) (fun e => i_aa_oovv H i j e b * x_aa T e b i j - i_aa_oovv H j i e b * x_aa T e b i j) = 2 * sumn (nua d) (fun e => i_aa_oovv H i j b e * x_aa T b e i j)).
  { rewrite <- sumn_scal. apply sumn_ext; intros e _. rewrite (pa_aa_oovv_12 H PA j i e b), (pa_aa_oovv_34 H PA i j e b), (T1 e b i j). ring. }
  rewrite Q24 in R24.
  assert (R25 : sumn (noa d) (fun m => sumn (noa d) (fun n => sumn (nua d) (fun e => sumn (nua d) (fun f => (i_aa_oovv H m n e f) * (x_aa T a b m k) * (x_aaa T e f c i j n))))) = sumn (noa d) (fun m => i_aa_oovv H m k a b * x_aa T a b m k - i_aa_oovv H m k b a * x_aa T a b m k)). { rewrite <- (s4a (noa d) (noa d) (nua d) k a b (fun m n e f => i_aa_oovv H m n e f * x_aa T a b m k) Hk Ha Hb). apply sumn_ext; intros m _. apply sumn_ext; intros n _. apply sumn_ext; intros e _. apply sumn_ext; intros f _. rewrite Y; unfold del3, del2; rewrite ?dlt_same, ?Zab, ?Zba, ?Zac, ?Zca, ?Zbc, ?Zcb, ?Zij, ?Zji, ?Zik, ?Zki, ?Zjk, ?Zkj; ring. }
  assert (Q25 : sumn (noa d) (fun m => i_aa_oovv H m k a b * x_aa T a b m k - i_aa_oovv H m k b a * x_aa T a b m k) = 2 * sumn (noa d) (fun m => i_aa_oovv H k m a b * x_aa T a b k m)).
  { rewrite <- sumn_scal. apply sumn_ext; intros m _. rewrite (pa_aa_oovv_34 H PA m k b a), (pa_aa_oovv_12 H PA m k a b), (T2 a b m k). ring. }
  rewrite Q25 in R25.
  assert (R26 : sumn (noa d) (fun m => sumn (noa d) (fun n => sumn (nua d) (fun e => sumn (nua d) (fun f => (i_aa_oovv H m n e f) * (x_aa T e c i j) * (x_aaa T a b f m n k))))) = sumn (nua d) (fun e => i_aa_oovv H i j e c * x_aa T e c i j - i_aa_oovv H j i e c * x_aa T e c i j)). { rewrite <- (s4ob (noa d) (nua d) (nua d) i j c (fun m n e f => i_aa_oovv H m n e f * x_aa T e c i j) Hi Hj Hc). apply sumn_ext; intros m _. apply sumn_ext; intros n _. apply sumn_ext; intros e _. apply sumn_ext; intros f _. rewrite Y; unfold del3, del2; rewrite ?dlt_same, ?Zab, ?Zba, ?Zac, ?Zca, ?Zbc, ?Zcb, ?Zij, ?Zji, ?Zik, ?Zki, ?Zjk, ?Zkj; ring. }
  assert (Q26 : sumn (nua d) (fun e => i_aa_oovv H i j e c * x_aa T e c i j - i_aa_oovv H j i e c * x_aa T e c i j) = 2 * sumn (nua d) (fun e => i_aa_oovv H i j c e * x_aa T c e i j)).
  { rewrite <- sumn_scal. apply sumn_ext; intros e _. rewrite (pa_aa_oovv_12 H PA j i e c), (pa_aa_oovv_34 H PA i j e c), (T1 e c i j). ring. }
  rewrite Q26 in R26.
  assert (R27 : sumn (noa d) (fun m => sumn (noa d) (fun n => sumn (nua d) (fun e => sumn (nua d) (fun f => (i_aa_oovv H m n e f) * (x_aa T a c m i) * (x_aaa T e b f n j k))))) = sumn (noa d) (fun m => i_aa_oovv H m i a c * x_aa T a c m i - i_aa_oovv H m i c a * x_aa T a c m i)). { rewrite <- (s4a (noa d) (noa d) (nua d) i a c (fun m n e f => i_aa_oovv H m n e f * x_aa T a c m i) Hi Ha Hc). apply sumn_ext; intros m _. apply sumn_ext; intros n _. apply sumn_ext; intros e _. apply sumn_ext; intros f _. rewrite Y; unfold del3, del2; rewrite ?dlt_same, ?Zab, ?Zba, ?Zac, ?Zca, ?Zbc, ?Zcb, ?Zij, ?Zji, ?Zik, ?Zki, ?Zjk, ?Zkj; ring. }
  assert (Q27 : sumn (noa d) (fun m => i_aa_oovv H m i a c * x_aa T a c m i - i_aa_oovv H m i c a * x_aa T a c m i) = 2 * sumn (noa d) (fun m => i_aa_oovv H i m a c * x_aa T a c i m)).
  { rewrite <- sumn_scal. apply sumn_ext; intros m _. rewrite (pa_aa_oovv_34 H PA m i c a), (pa_aa_oovv_12 H PA m i a c), (T2 a c m i). ring. }
  rewrite Q27 in R27.
  assert (R28 : sumn (noa d) (fun m => sumn (noa d) (fun n => sumn (nua d) (fun e => sumn (nua d) (fun f => (i_aa_oovv H m n e f) * (x_aa T e a i k) * (x_aaa T f b c m j n))))) = sumn (nua d) (fun e => i_aa_oovv H i k e a * x_aa T e a i k - i_aa_oovv H k i e a * x_aa T e a i k)). { rewrite <- (s4ob (noa d) (nua d) (nua d) i k a (fun m n e f => i_aa_oovv H m n e f * x_aa T e a i k) Hi Hk Ha). apply sumn_ext; intros m _. apply sumn_ext; intros n _. apply sumn_ext; intros e _. apply sumn_ext; intros f _. rewrite Y; unfold del3, del2; rewrite ?dlt_same, ?Zab, ?Zba, ?Zac, ?Zca, ?Zbc, ?Zcb, ?Zij, ?Zji, ?Zik, ?Zki, ?Zjk, ?Zkj; ring. }
  assert (Q28 : sumn (nua d) (fun e => i_aa_oovv H i k e a * x_aa T e a i k - i_aa_oovv H k i e a * x_aa T e a i k) = 2 * sumn (nua d) (fun e => i_aa_oovv H i k a e * x_aa T a e i k)).
  { rewrite <- sumn_scal. apply sumn_ext; intros e _. rewrite (pa_aa_oovv_12 H PA k i e a), (pa_aa_oovv_34 H PA i k e a), (T1 e a i k). ring. }
  rewrite Q28 in R28.
  assert (R29 : sumn (noa d) (fun m => sumn (noa d) (fun n => sumn (nua d) (fun e => sumn (nua d) (fun f => (i_aa_oovv H m n e f) * (x_aa T a c m j) * (x_aaa T e b f i n k))))) = sumn (noa d) (fun m => i_aa_oovv H m j a c * x_aa T a c m j - i_aa_oovv H m j c a * x_aa T a c m j)). { rewrite <- (s4a (noa d) (noa d) (nua d) j a c (fun m n e f => i_aa_oovv H m n e f * x_aa T a c m j) Hj Ha Hc). apply sumn_ext; intros m _. apply sumn_ext; intros n _. apply sumn_ext; intros e _. apply sumn_ext; intros f _. rewrite Y; unfold del3, del2; rewrite ?dlt_same, ?Zab, ?Zba, ?Zac, ?Zca, ?Zbc, ?Zcb, ?Zij, ?Zji, ?Zik, ?Zki, ?Zjk, ?Zkj; ring. }
  assert (Q29 : sumn (noa d) (fun m => i_aa_oovv H m j a c * x_aa T a c m j - i_aa_oovv H m j c a * x_aa T a c m j) = 2 * sumn (noa d) (fun m => i_aa_oovv H j m a c * x_aa T a c j m)).
  { rewrite <- sumn_scal. apply sumn_ext; intros m _. rewrite (pa_aa_oovv_34 H PA m j c a), (pa_aa_oovv_12 H PA m j a c), (T2 a c m j). ring. }
  rewrite Q29 in R29.
  assert (R30 : sumn (noa d) (fun m => sumn (noa d) (fun n => sumn (nua d) (fun e => sumn (nua d) (fun f => (i_aa_oovv H m n e f) * (x_aa T e b i k) * (x_aaa T a f c m j n))))) = sumn (nua d) (fun e => i_aa_oovv H i k e b * x_aa T e b i k - i_aa_oovv H k i e b * x_aa T e b i k)). { rewrite <- (s4ob (noa d) (nua d) (nua d) i k b (fun m n e f => i_aa_oovv H m n e f * x_aa T e b i k) Hi Hk Hb). apply sumn_ext; intros m _. apply sumn_ext; intros n _. apply sumn_ext; intros e _. apply sumn_ext; intros f _. rewrite Y; unfold del3, del2; rewrite ?dlt_same, ?Zab, ?Zba, ?Zac, ?Zca, ?Zbc, ?Zcb, ?Zij, ?Zji, ?Zik, ?Zki, ?Zjk, ?Zkj; ring. }
  assert (Q30 : sumn (nua d) (fun e => i_aa_oovv H i k e b * x_aa T e b i k - i_aa_oovv H k i e b * x_aa T e b i k) = 2 * sumn (nua d) (fun e => i_aa_oovv H i k b e * x_aa T b e i k)).
  { rewrite <- sumn_scal. apply sumn_ext; intros e _. rewrite (pa_aa_oovv_12 H PA k i e b), (pa_aa_oovv_34 H PA i k e b), (T1 e b i k). ring. }
  rewrite Q30 in R30.
  assert (R31 : sumn (noa d) (fun m => sumn (noa d) (fun n => sumn (nua d) (fun e => sumn (nua d) (fun f => (i_aa_oovv H m n e f) * (x_aa T a c m k) * (x_aaa T e b f i j n))))) = sumn (noa d) (fun m => i_aa_oovv H m k a c * x_aa T a c m k - i_aa_oovv H m k c a * x_aa T a c m k)). { rewrite <- (s4a (noa d) (noa d) (nua d) k a c (fun m n e f => i_aa_oovv H m n e f * x_aa T a c m k) Hk Ha Hc). apply sumn_ext; intros m _. apply sumn_ext; intros n _. apply sumn_ext; intros e _. apply sumn_ext; intros f _. rewrite Y; unfold del3, del2; rewrite ?dlt_same, ?Zab, ?Zba, ?Zac, ?Zca, ?Zbc, ?Zcb, ?Zij, ?Zji, ?Zik, ?Zki, ?Zjk, ?Zkj; ring. }
  assert (Q31 : sumn (noa d) (fun m => i_aa_oovv H m k a c * x_aa T a c m k - i_aa_oovv H m k c a * x_aa T a c m k) = 2 * sumn (noa d) (fun m => i_aa_oovv H k m a c * x_aa T a c k m)).
  { rewrite <- sumn_scal. apply sumn_ext; intros m _. rewrite (pa_aa_oovv_34 H PA m k c a), (pa_aa_oovv_12 H PA m k a c), (T2 a c m k). ring. }
  rewrite Q31 in R31.
  assert (R32 : sumn (noa d) (fun m => sumn (noa d) (fun n => sumn (nua d) (fun e => sumn (nua d) (fun f => (i_aa_oovv H m n e f) * (x_aa T e c i k) * (x_aaa T a b f m j n))))) = sumn (nua d) (fun e => i_aa_oovv H i k e c * x_aa T e c i k - i_aa_oovv H k i e c * x_aa T e c i k)). { rewrite <- (s4ob (noa d) (nua d) (nua d) i k c (fun m n e f => i_aa_oovv H m n e f * x_aa T e c i k) Hi Hk Hc). apply sumn_ext; intros m _. apply sumn_ext; intros n _. apply sumn_ext; intros e _. apply sumn_ext; intros f _. rewrite Y; unfold del3, del2; rewrite ?dlt_same, ?Zab, ?Zba, ?Zac, ?Zca, ?Zbc, ?Zcb, ?Zij, ?Zji, ?Zik, ?Zki, ?Zjk, ?Zkj; ring. }
  assert (Q32 : sumn (nua d) (fun e => i_aa_oovv H i k e c * x_aa T e c i k - i_aa_oovv H k i e c * x_aa T e c i k) = 2 * sumn (nua d) (fun e => i_aa_oovv H i k c e * x_aa T c e i k)).
  { rewrite <- sumn_scal. apply sumn_ext; intros e _. rewrite (pa_aa_oovv_12 H PA k i e c), (pa_aa_oovv_34 H PA i k e c), (T1 e c i k). ring. }
  rewrite Q32 in R32.
  assert (R33 : sumn (noa d) (fun m => sumn (noa d) (fun n => sumn (nua d) (fun e => sumn (nua d) (fun f => (i_aa_oovv H m n e f) * (x_aa T b c m i) * (x_aaa T a e f n j k))))) = sumn (noa d) (fun m => i_aa_oovv H m i b c * x_aa T b c m i - i_aa_oovv H m i c b * x_aa T b c m i)). { rewrite <- (s4a (noa d) (noa d) (nua d) i b c (fun m n e f => i_aa_oovv H m n e f * x_aa T b c m i) Hi Hb Hc). apply sumn_ext; intros m _. apply sumn_ext; intros n _. apply sumn_ext; intros e _. apply sumn_ext; intros f _. rewrite Y; unfold del3, del2; rewrite ?dlt_same, ?Zab, ?Zba, ?Zac, ?Zca, ?Zbc, ?Zcb, ?Zij, ?Zji, ?Zik, ?Zki, ?Zjk, ?Zkj; ring. }
  assert (Q33 : sumn (noa d) (fun m => i_aa_oovv H m i b c * x_aa T b c m i - i_aa_oovv H m i c b * x_aa T b c m i) = 2 * sumn (noa d) (fun m => i_aa_oovv H i m b c * x_aa T b c i m)).
  { rewrite <- sumn_scal. apply sumn_ext; intros m _. rewrite (pa_aa_oovv_34 H PA m i c b), (pa_aa_oovv_12 H PA m i b c), (T2 b c m i). ring. }
  rewrite Q33 in R33.
  assert (R34 : sumn (noa d) (fun m => sumn (noa d) (fun n => sumn (nua d) (fun e => sumn (nua d) (fun f => (i_aa_oovv H m n e f) * (x_aa T e a j k) * (x_aaa T f b c i m n))))) = sumn (nua d) (fun e => i_aa_oovv H j k e a * x_aa T e a j k - i_aa_oovv H k j e a * x_aa T e a j k)). { rewrite <- (s4ob (noa d) (nua d) (nua d) j k a (fun m n e f => i_aa_oovv H m n e f * x_aa T e a j k) Hj Hk Ha). apply sumn_ext; intros m _. apply sumn_ext; intros n _. apply sumn_ext; intros e _. apply sumn_ext; intros f _. rewrite Y; unfold del3, del2; rewrite ?dlt_same, ?Zab, ?Zba, ?Zac, ?Zca, ?Zbc, ?Zcb, ?Zij, ?Zji, ?Zik, ?Zki, ?Zjk, ?Zkj; ring. }
  assert (Q34 : sumn (nua d) (fun e => i_aa_oovv H j k e a * x_aa T e a j k - i_aa_oovv H k j e a * x_aa T e a j k) = 2 * sumn (nua d) (fun e => i_aa_oovv H j k a e * x_aa T a e j k)).
  { rewrite <- sumn_scal. apply sumn_ext; intros e _. rewrite (pa_aa_oovv_12 H PA k j e a), (pa_aa_oovv_34 H PA j k e a), (T1 e a j k). ring. }
  rewrite Q34 in R34.
  assert (R35 : sumn (noa d) (fun m => sumn (noa d) (fun n => sumn (nua d) (fun e => sumn (nua d) (fun f => (i_aa_oovv H m n e f) * (x_aa T b c m j) * (x_aaa T a e f i n k))))) = sumn (noa d) (fun m => i_aa_oovv H m j b c * x_aa T b c m j - i_aa_oovv H m j c b * x_aa T b c m j)). { rewrite <- (s4a (noa d) (noa d) (nua d) j b c (fun m n e f => i_aa_oovv H m n e f * x_aa T b c m j) Hj Hb Hc). apply sumn_ext; intros m _. apply sumn_ext; intros n _. apply sumn_ext; intros e _. apply sumn_ext; intros f _. rewrite Y; unfold del3, del2; rewrite ?dlt_same, ?Zab, ?Zba, ?Zac, ?Zca, ?Zbc, ?Zcb, ?Zij, ?Zji, ?Zik, ?Zki, ?Zjk, ?Zkj; ring. }
  assert (Q35 : sumn (noa d) (fun m => i_aa_oovv H m j b c * x_aa T b c m j - i_aa_oovv H m j c b * x_aa T b c m j) = 2 * sumn (noa d) (fun m => i_aa_oovv H j m b c * x_aa T b c j m)).
  { rewrite <- sumn_scal. apply sumn_ext; intros m _. rewrite (pa_aa_oovv_34 H PA m j c b), (pa_aa_oovv_12 H PA m j b c), (T2 b c m j). ring. }
  rewrite Q35 in R35.
  assert (R36 : sumn (noa d) (fun m => sumn (noa d) (fun n => sumn (nua d) (fun e => sumn (nua d) (fun f => (i_aa_oovv H m n e f) * (x_aa T e b j k) * (x_aaa T a f c i m n))))) = sumn (nua d) (fun e => i_aa_oovv H j k e b * x_aa T e b j k - i_aa_oovv H k j e b * x_aa T e b j k)). { rewrite <- (s4ob (noa d) (nua d) (nua d) j k b (fun m n e f => i_aa_oovv H m n e f * x_aa T e b j k) Hj Hk Hb). apply sumn_ext; intros m _. apply sumn_ext; intros n _. apply sumn_ext; intros e _. apply sumn_ext; intros f _. rewrite Y; unfold del3, del2; rewrite ?dlt_same, ?Zab, ?Zba, ?Zac, ?Zca, ?Zbc, ?Zcb, ?Zij, ?Zji, ?Zik, ?Zki, ?Zjk, ?Zkj; ring. }
  assert (Q36 : sumn (nua d) (fun e => i_aa_oovv H j k e b * x_aa T e b j k - i_aa_oovv H k j e b * x_aa T e b j k) = 2 * sumn (nua d) (fun e => i_aa_oovv H j k b e * x_aa T b e j k)).
  { rewrite <- sumn_scal. apply sumn_ext; intros e _. rewrite (pa_aa_oovv_12 H PA k j e b), (pa_aa_oovv_34 H PA j k e b), (T1 e b j k). ring. }
  rewrite Q36 in R36.
  assert (R37 : sumn (noa d) (fun m => sumn (noa d) (fun n => sumn (nua d) (fun e => sumn (nua d) (fun f => (i_aa_oovv H m n e f) * (x_aa T b c m k) * (x_aaa T a e f i j n))))) = sumn (noa d) (fun m => i_aa_oovv H m k b c * x_aa T b c m k - i_aa_oovv H m k c b * x_aa T b c m k)). { rewrite <- (s4a (noa d) (noa d) (nua d) k b c (fun m n e f => i_aa_oovv H m n e f * x_aa T b c m k) Hk Hb Hc). apply sumn_ext; intros m _. apply sumn_ext; intros n _. apply sumn_ext; intros e _. apply sumn_ext; intros f _. rewrite Y; unfold del3, del2; rewrite ?dlt_same, ?Zab, ?Zba, ?Zac, ?Zca, ?Zbc, ?Zcb, ?Zij, ?Zji, ?Zik, ?Zki, ?Zjk, ?Zkj; ring. }
  assert (Q37 : sumn (noa d) (fun m => i_aa_oovv H m k b c * x_aa T b c m k - i_aa_oovv H m k c b * x_aa T b c m k) = 2 * sumn (noa d) (fun m => i_aa_oovv H k m b c * x_aa T b c k m)).
  { rewrite <- sumn_scal. apply sumn_ext; intros m _. rewrite (pa_aa_oovv_34 H PA m k c b), (pa_aa_oovv_12 H PA m k b c), (T2 b c m k). ring. }
  rewrite Q37 in R37.
  assert (R38 : sumn (noa d) (fun m => sumn (noa d) (fun n => sumn (nua d) (fun e => sumn (nua d) (fun f => (i_aa_oovv H m n e f) * (x_aa T e c j k) * (x_aaa T a b f i m n))))) = sumn (nua d) (fun e => i_aa_oovv H j k e c * x_aa T e c j k - i_aa_oovv H k j e c * x_aa T e c j k)). { rewrite <- (s4ob (noa d) (nua d) (nua d) j k c (fun m n e f => i_aa_oovv H m n e f * x_aa T e c j k) Hj Hk Hc). apply sumn_ext; intros m _. apply sumn_ext; intros n _. apply sumn_ext; intros e _. apply sumn_ext; intros f _. rewrite Y; unfold del3, del2; rewrite ?dlt_same, ?Zab, ?Zba, ?Zac, ?Zca, ?Zbc, ?Zcb, ?Zij, ?Zji, ?Zik, ?Zki, ?Zjk, ?Zkj; ring. }
  assert (Q38 : sumn (nua d) (fun e => i_aa_oovv H j k e c * x_aa T e c j k - i_aa_oovv H k j e c * x_aa T e c j k) = 2 * sumn (nua d) (fun e => i_aa_oovv H j k c e * x_aa T c e j k)).
  { rewrite <- sumn_scal. apply sumn_ext; intros e _. rewrite (pa_aa_oovv_12 H PA k j e c), (pa_aa_oovv_34 H PA j k e c), (T1 e c j k). ring. }
  rewrite Q38 in R38.
  unfold crdia_aaa. rewrite R0, R1, R2, R3, R4, R5, R6, R7, R8, R9, R10, R11, R12, R13, R14, R15, R16, R17, R18, R19, R20, R21, R22, R23, R24, R25, R26, R27, R28, R29, R30, R31, R32, R33, R34, R35, R36, R37, R38. unfold crcc_DD_aaa, crcc_DC_aaa, crcc_DB_aaa, crcc_h_aa_vvvv, crcc_h_ab_vvvv, crcc_h_bb_vvvv, crcc_d3aaa_v, crcc_d3aaa_o, crcc_d3aab_v, crcc_d3aab_o, crcc_d3abb_v, crcc_d3abb_o, crcc_d3bbb_v, crcc_d3bbb_o.
  rewrite ?(proj2 (Nat.leb_gt b a) Lab). rewrite ?(proj2 (Nat.leb_gt c a) Lac). rewrite ?(proj2 (Nat.leb_gt c b) Lbc). field.
Qed.
Lemma diag_aab d H0 H T L a b c i j k : primary_antisym H -> antisym_amps T -> (a < nua d)%nat -> (b < nua d)%nat -> (c < nub d)%nat -> (i < noa d)%nat -> (j < noa d)%nat -> (k < nob d)%nat -> (a < b)%nat -> (i < j)%nat ->
  (forall p q r s t u, x_aab T p q r s t u = del2 a b p q * dlt r c * (del2 i j s t * dlt u k)) -> crdia_aab d H T a b c i j k = - crcc_DD_aab d H0 H T L a b c i j k.
Proof.
  intros PA AT Ha Hb Hc Hi Hj Hk Lab Lij Y. destruct AT as [T1 T2 T3 T4].
  assert (Zab := dlt_lt a b Lab). assert (Zba := dlt_gt b a Lab).
  assert (Zij := dlt_lt i j Lij). assert (Zji := dlt_gt j i Lij).
  assert (R0 : sumn (nua d) (fun e => (i_a_vv H a e) * (x_aab T e b c i j k)) = i_a_vv H a a). { rewrite <- (s1 (nua d) a (fun e => i_a_vv H a e) Ha). apply sumn_ext; intros e _. rewrite Y; unfold del3, del2; rewrite ?dlt_same, ?Zab, ?Zba, ?Zij, ?Zji; ring. }
  assert (R1 : sumn (noa d) (fun m => (i_a_oo H m i) * (x_aab T a b c m j k)) = i_a_oo H i i). { rewrite <- (s1 (noa d) i (fun m => i_a_oo H m i) Hi). apply sumn_ext; intros m _. rewrite Y; unfold del3, del2; rewrite ?dlt_same, ?Zab, ?Zba, ?Zij, ?Zji; ring. }
  assert (R2 : sumn (nua d) (fun e => (i_a_vv H b e) * (x_aab T a e c i j k)) = i_a_vv H b b). { rewrite <- (s1 (nua d) b (fun e => i_a_vv H b e) Hb). apply sumn_ext; intros e _. rewrite Y; unfold del3, del2; rewrite ?dlt_same, ?Zab, ?Zba, ?Zij, ?Zji; ring. }
  assert (R3 : sumn (noa d) (fun m => (i_a_oo H m j) * (x_aab T a b c i m k)) = i_a_oo H j j). { rewrite <- (s1 (noa d) j (fun m => i_a_oo H m j) Hj). apply sumn_ext; intros m _. rewrite Y; unfold del3, del2; rewrite ?dlt_same, ?Zab, ?Zba, ?Zij, ?Zji; ring. }
  assert (R4 : sumn (nub d) (fun e => (i_b_vv H c e) * (x_aab T a b e i j k)) = i_b_vv H c c). { rewrite <- (s1 (nub d) c (fun e => i_b_vv H c e) Hc). apply sumn_ext; intros e _. rewrite Y; unfold del3, del2; rewrite ?dlt_same, ?Zab, ?Zba, ?Zij, ?Zji; ring. }
  assert (R5 : sumn (nob d) (fun m => (i_b_oo H m k) * (x_aab T a b c i j m)) = i_b_oo H k k). { rewrite <- (s1 (nob d) k (fun m => i_b_oo H m k) Hk). apply sumn_ext; intros m _. rewrite Y; unfold del3, del2; rewrite ?dlt_same, ?Zab, ?Zba, ?Zij, ?Zji; ring. }
  assert (R6 : sumn (nua d) (fun e => sumn (nua d) (fun f => (i_aa_vvvv H a b e f) * (x_aab T e f c i j k))) = i_aa_vvvv H a b a b - i_aa_vvvv H a b b a). { rewrite <- (s2a (nua d) a b (fun e f => i_aa_vvvv H a b e f) Ha Hb). apply sumn_ext; intros e _. apply sumn_ext; intros f _. rewrite Y; unfold del3, del2; rewrite ?dlt_same, ?Zab, ?Zba, ?Zij, ?Zji; ring. }
  assert (Q6 : i_aa_vvvv H a b a b - i_aa_vvvv H a b b a = 2 * i_aa_vvvv H a b a b) by (rewrite (pa_aa_vvvv_34 H PA a b b a); ring).
  rewrite Q6 in R6.
  assert (R7 : sumn (noa d) (fun m => sumn (noa d) (fun n => (i_aa_oooo H m n i j) * (x_aab T a b c m n k))) = i_aa_oooo H i j i j - i_aa_oooo H j i i j). { rewrite <- (s2a (noa d) i j (fun m n => i_aa_oooo H m n i j) Hi Hj). apply sumn_ext; intros m _. apply sumn_ext; intros n _. rewrite Y; unfold del3, del2; rewrite ?dlt_same, ?Zab, ?Zba, ?Zij, ?Zji; ring. }
  assert (Q7 : i_aa_oooo H i j i j - i_aa_oooo H j i i j = 2 * i_aa_oooo H j i j i) by (rewrite (pa_aa_oooo_12 H PA i j i j), (pa_aa_oooo_34 H PA j i i j); ring).
  rewrite Q7 in R7.
  assert (R8 : sumn (nua d) (fun e => sumn (nub d) (fun f => (i_ab_vvvv H a c e f) * (x_aab T e b f i j k))) = i_ab_vvvv H a c a c). { rewrite <- (s2 (nua d) (nub d) a c (fun e f => i_ab_vvvv H a c e f) Ha Hc). apply sumn_ext; intros e _. apply sumn_ext; intros f _. rewrite Y; unfold del3, del2; rewrite ?dlt_same, ?Zab, ?Zba, ?Zij, ?Zji; ring. }
  assert (R9 : sumn (noa d) (fun m => sumn (nob d) (fun n => (i_ab_oooo H m n i k) * (x_aab T a b c m j n))) = i_ab_oooo H i k i k). { rewrite <- (s2 (noa d) (nob d) i k (fun m n => i_ab_oooo H m n i k) Hi Hk). apply sumn_ext; intros m _. apply sumn_ext; intros n _. rewrite Y; unfold del3, del2; rewrite ?dlt_same, ?Zab, ?Zba, ?Zij, ?Zji; ring. }
  assert (R10 : sumn (nua d) (fun e => sumn (nub d) (fun f => (i_ab_vvvv H b c e f) * (x_aab T a e f i j k))) = i_ab_vvvv H b c b c). { rewrite <- (s2 (nua d) (nub d) b c (fun e f => i_ab_vvvv H b c e f) Hb Hc). apply sumn_ext; intros e _. apply sumn_ext; intros f _. rewrite Y; unfold del3, del2; rewrite ?dlt_same, ?Zab, ?Zba, ?Zij, ?Zji; ring. }
  assert (R11 : sumn (noa d) (fun m => sumn (nob d) (fun n => (i_ab_oooo H m n j k) * (x_aab T a b c i m n))) = i_ab_oooo H j k j k). { rewrite <- (s2 (noa d) (nob d) j k (fun m n => i_ab_oooo H m n j k) Hj Hk). apply sumn_ext; intros m _. apply sumn_ext; intros n _. rewrite Y; unfold del3, del2; rewrite ?dlt_same, ?Zab, ?Zba, ?Zij, ?Zji; ring. }
  assert (R12 : sumn (nua d) (fun e => sumn (noa d) (fun m => (i_aa_voov H a m i e) * (x_aab T e b c m j k))) = i_aa_voov H a i i a). { rewrite <- (s2 (nua d) (noa d) a i (fun e m => i_aa_voov H a m i e) Ha Hi). apply sumn_ext; intros e _. apply sumn_ext; intros m _. rewrite Y; unfold del3, del2; rewrite ?dlt_same, ?Zab, ?Zba, ?Zij, ?Zji; ring. }
  assert (R13 : sumn (nua d) (fun e => sumn (noa d) (fun m => (i_aa_voov H a m j e) * (x_aab T e b c i m k))) = i_aa_voov H a j j a). { rewrite <- (s2 (nua d) (noa d) a j (fun e m => i_aa_voov H a m j e) Ha Hj). apply sumn_ext; intros e _. apply sumn_ext; intros m _. rewrite Y; unfold del3, del2; rewrite ?dlt_same, ?Zab, ?Zba, ?Zij, ?Zji; ring. }
  assert (R14 : sumn (nua d) (fun e => sumn (nob d) (fun m => (i_ab_vovo H a m e k) * (x_aab T e b c i j m))) = i_ab_vovo H a k a k). { rewrite <- (s2 (nua d) (nob d) a k (fun e m => i_ab_vovo H a m e k) Ha Hk). apply sumn_ext; intros e _. apply sumn_ext; intros m _. rewrite Y; unfold del3, del2; rewrite ?dlt_same, ?Zab, ?Zba, ?Zij, ?Zji; ring. }
  assert (R15 : sumn (nua d) (fun e => sumn (noa d) (fun m => (i_aa_voov H b m i e) * (x_aab T a e c m j k))) = i_aa_voov H b i i b). { rewrite <- (s2 (nua d) (noa d) b i (fun e m => i_aa_voov H b m i e) Hb Hi). apply sumn_ext; intros e _. apply sumn_ext; intros m _. rewrite Y; unfold del3, del2; rewrite ?dlt_same, ?Zab, ?Zba, ?Zij, ?Zji; ring. }
  assert (R16 : sumn (nua d) (fun e => sumn (noa d) (fun m => (i_aa_voov H b m j e) * (x_aab T a e c i m k))) = i_aa_voov H b j j b). { rewrite <- (s2 (nua d) (noa d) b j (fun e m => i_aa_voov H b m j e) Hb Hj). apply sumn_ext; intros e _. apply sumn_ext; intros m _. rewrite Y; unfold del3, del2; rewrite ?dlt_same, ?Zab, ?Zba, ?Zij, ?Zji; ring. }
  assert (R17 : sumn (nua d) (fun e => sumn (nob d) (fun m => (i_ab_vovo H b m e k) * (x_aab T a e c i j m))) = i_ab_vovo H b k b k). { rewrite <- (s2 (nua d) (nob d) b k (fun e m => i_ab_vovo H b m e k) Hb Hk). apply sumn_ext; intros e _. apply sumn_ext; intros m _. rewrite Y; unfold del3, del2; rewrite ?dlt_same, ?Zab, ?Zba, ?Zij, ?Zji; ring. }
  assert (R18 : sumn (nub d) (fun e => sumn (noa d) (fun m => (i_ab_ovov H m c i e) * (x_aab T a b e m j k))) = i_ab_ovov H i c i c). { rewrite <- (s2 (nub d) (noa d) c i (fun e m => i_ab_ovov H m c i e) Hc Hi). apply sumn_ext; intros e _. apply sumn_ext; intros m _. rewrite Y; unfold del3, del2; rewrite ?dlt_same, ?Zab, ?Zba, ?Zij, ?Zji; ring. }
  assert (R19 : sumn (nub d) (fun e => sumn (noa d) (fun m => (i_ab_ovov H m c j e) * (x_aab T a b e i m k))) = i_ab_ovov H j c j c). { rewrite <- (s2 (nub d) (noa d) c j (fun e m => i_ab_ovov H m c j e) Hc Hj). apply sumn_ext; intros e _. apply sumn_ext; intros m _. rewrite Y; unfold del3, del2; rewrite ?dlt_same, ?Zab, ?Zba, ?Zij, ?Zji; ring. }
  assert (R20 : sumn (nub d) (fun e => sumn (nob d) (fun m => (i_bb_voov H c m k e) * (x_aab T a b e i j m))) = i_bb_voov H c k k c). { rewrite <- (s2 (nub d) (nob d) c k (fun e m => i_bb_voov H c m k e) Hc Hk). apply sumn_ext; intros e _. apply sumn_ext; intros m _. rewrite Y; unfold del3, del2; rewrite ?dlt_same, ?Zab, ?Zba, ?Zij, ?Zji; ring. }
  assert (R21 : sumn (noa d) (fun m => sumn (noa d) (fun n => sumn (nua d) (fun e => sumn (nua d) (fun f => (i_aa_oovv H m n e f) * (x_aa T a b m i) * (x_aab T e f c n j k))))) = sumn (noa d) (fun m => i_aa_oovv H m i a b * x_aa T a b m i - i_aa_oovv H m i b a * x_aa T a b m i)). { rewrite <- (s4a (noa d) (noa d) (nua d) i a b (fun m n e f => i_aa_oovv H m n e f * x_aa T a b m i) Hi Ha Hb). apply sumn_ext; intros m _. apply sumn_ext; intros n _. apply sumn_ext; intros e _. apply sumn_ext; intros f _. rewrite Y; unfold del3, del2; rewrite ?dlt_same, ?Zab, ?Zba, ?Zij, ?Zji; ring. }
  assert (Q21 : sumn (noa d) (fun m => i_aa_oovv H m i a b * x_aa T a b m i - i_aa_oovv H m i b a * x_aa T a b m i) = 2 * sumn (noa d) (fun m => i_aa_oovv H i m a b * x_aa T a b i m)).
  { rewrite <- sumn_scal. apply sumn_ext; intros m _. rewrite (pa_aa_oovv_34 H PA m i b a), (pa_aa_oovv_12 H PA m i a b), (T2 a b m i). ring. }
  rewrite Q21 in R21.
  assert (R22 : sumn (noa d) (fun m => sumn (noa d) (fun n => sumn (nua d) (fun e => sumn (nua d) (fun f => (i_aa_oovv H m n e f) * (x_aa T e a i j) * (x_aab T f b c m n k))))) = sumn (nua d) (fun e => i_aa_oovv H i j e a * x_aa T e a i j - i_aa_oovv H j i e a * x_aa T e a i j)). { rewrite <- (s4ob (noa d) (nua d) (nua d) i j a (fun m n e f => i_aa_oovv H m n e f * x_aa T e a i j) Hi Hj Ha). apply sumn_ext; intros m _. apply sumn_ext; intros n _. apply sumn_ext; intros e _. apply sumn_ext; intros f _. rewrite Y; unfold del3, del2; rewrite ?dlt_same, ?Zab, ?Zba, ?Zij, ?Zji; ring. }
  assert (Q22 : sumn (nua d) (fun e => i_aa_oovv H i j e a * x_aa T e a i j - i_aa_oovv H j i e a * x_aa T e a i j) = 2 * sumn (nua d) (fun e => i_aa_oovv H i j a e * x_aa T a e i j)).
  { rewrite <- sumn_scal. apply sumn_ext; intros e _. rewrite (pa_aa_oovv_12 H PA j i e a), (pa_aa_oovv_34 H PA i j e a), (T1 e a i j). ring. }
  rewrite Q22 in R22.
  assert (R23 : sumn (noa d) (fun m => sumn (noa d) (fun n => sumn (nua d) (fun e => sumn (nua d) (fun f => (i_aa_oovv H m n e f) * (x_aa T a b m j) * (x_aab T e f c i n k))))) = sumn (noa d) (fun m => i_aa_oovv H m j a b * x_aa T a b m j - i_aa_oovv H m j b a * x_aa T a b m j)). { rewrite <- (s4a (noa d) (noa d) (nua d) j a b (fun m n e f => i_aa_oovv H m n e f * x_aa T a b m j) Hj Ha Hb). apply sumn_ext; intros m _. apply sumn_ext; intros n _. apply sumn_ext; intros e _. apply sumn_ext; intros f _. rewrite Y; unfold del3, del2; rewrite ?dlt_same, ?Zab, ?Zba, ?Zij, ?Zji; ring. }
  assert (Q23 : sumn (noa d) (fun m => i_aa_oovv H m j a b * x_aa T a b m j - i_aa_oovv H m j b a * x_aa T a b m j) = 2 * sumn (noa d) (fun m => i_aa_oovv H j m a b * x_aa T a b j m)).
  { rewrite <- sumn_scal. apply sumn_ext; intros m _. rewrite (pa_aa_oovv_34 H PA m j b a), (pa_aa_oovv_12 H PA m j a b), (T2 a b m j). ring. }
  rewrite Q23 in R23.
  assert (R24 : sumn (noa d) (fun m => sumn (noa d) (fun n => sumn (nua d) (fun e => sumn (nua d) (fun f => (i_aa_oovv H m n e f) * (x_aa T e b i j) * (x_aab T a f c m n k))))) = sumn (nua d) (fun e => i_aa_oovv H i j e b * x_aa T e b i j - i_aa_oovv H j i e b * x_aa T e b i j)). { rewrite <- (s4ob (noa d) (nua d) (nua d) i j b (fun m n e f => i_aa_oovv H m n e f * x_aa T e b i j) Hi Hj Hb). apply sumn_ext; intros m _. apply sumn_ext; intros n _. apply sumn_ext; intros e _. apply sumn_ext; intros f _. rewrite Y; unfold del3, del2; rewrite ?dlt_same, ?Zab, ?Zba, ?Zij, ?Zji; ring. }
  assert (Q24 : sumn (nua d) (fun e => i_aa_oovv H i j e b * x_aa T e b i j - i_aa_oovv H j i e b * x_aa T e b i j) = 2 * sumn (nua d) (fun e => i_aa_oovv H i j b e * x_aa T b e i j)).
  { rewrite <- sumn_scal. apply sumn_ext; intros e _. rewrite (pa_aa_oovv_12 H PA j i e b), (pa_aa_oovv_34 H PA i j e b), (T1 e b i j). ring. }
  rewrite Q24 in R24.
  assert (R25 : sumn (nob d) (fun m => sumn (noa d) (fun n => sumn (nua d) (fun e => sumn (nub d) (fun f => (i_ab_oovv H n m e f) * (x_ab T a c i m) * (x_aab T e b f n j k))))) = sumn (nob d) (fun m => i_ab_oovv H i m a c * x_ab T a c i m)). { rewrite <- (s4 (nob d) (noa d) (nua d) (nub d) i a c (fun m n e f => i_ab_oovv H n m e f * x_ab T a c i m) Hi Ha Hc). apply sumn_ext; intros m _. apply sumn_ext; intros n _. apply sumn_ext; intros e _. apply sumn_ext; intros f _. rewrite Y; unfold del3, del2; rewrite ?dlt_same, ?Zab, ?Zba, ?Zij, ?Zji; ring. }
  assert (R26 : sumn (noa d) (fun m => sumn (nob d) (fun n => sumn (nub d) (fun e => sumn (nua d) (fun f => (i_ab_oovv H m n f e) * (x_ab T a e i k) * (x_aab T f b c m j n))))) = sumn (nub d) (fun e => i_ab_oovv H i k a e * x_ab T a e i k)). { rewrite <- (s4o (noa d) (nob d) (nub d) (nua d) i k a (fun m n e f => i_ab_oovv H m n f e * x_ab T a e i k) Hi Hk Ha). apply sumn_ext; intros m _. apply sumn_ext; intros n _. apply sumn_ext; intros e _. apply sumn_ext; intros f _. rewrite Y; unfold del3, del2; rewrite ?dlt_same, ?Zab, ?Zba, ?Zij, ?Zji; ring. }
  assert (R27 : sumn (nob d) (fun m => sumn (noa d) (fun n => sumn (nua d) (fun e => sumn (nub d) (fun f => (i_ab_oovv H n m e f) * (x_ab T a c j m) * (x_aab T e b f i n k))))) = sumn (nob d) (fun m => i_ab_oovv H j m a c * x_ab T a c j m)). { rewrite <- (s4 (nob d) (noa d) (nua d) (nub d) j a c (fun m n e f => i_ab_oovv H n m e f * x_ab T a c j m) Hj Ha Hc). apply sumn_ext; intros m _. apply sumn_ext; intros n _. apply sumn_ext; intros e _. apply sumn_ext; intros f _. rewrite Y; unfold del3, del2; rewrite ?dlt_same, ?Zab, ?Zba, ?Zij, ?Zji; ring. }
  assert (R28 : sumn (noa d) (fun m => sumn (nob d) (fun n => sumn (nub d) (fun e => sumn (nua d) (fun f => (i_ab_oovv H m n f e) * (x_ab T b e i k) * (x_aab T a f c m j n))))) = sumn (nub d) (fun e => i_ab_oovv H i k b e * x_ab T b e i k)). { rewrite <- (s4o (noa d) (nob d) (nub d) (nua d) i k b (fun m n e f => i_ab_oovv H m n f e * x_ab T b e i k) Hi Hk Hb). apply sumn_ext; intros m _. apply sumn_ext; intros n _. apply sumn_ext; intros e _. apply sumn_ext; intros f _. rewrite Y; unfold del3, del2; rewrite ?dlt_same, ?Zab, ?Zba, ?Zij, ?Zji; ring. }
  assert (R29 : sumn (noa d) (fun m => sumn (nob d) (fun n => sumn (nua d) (fun e => sumn (nub d) (fun f => (i_ab_oovv H m n e f) * (x_ab T a c m k) * (x_aab T e b f i j n))))) = sumn (noa d) (fun m => i_ab_oovv H m k a c * x_ab T a c m k)). { rewrite <- (s4 (noa d) (nob d) (nua d) (nub d) k a c (fun m n e f => i_ab_oovv H m n e f * x_ab T a c m k) Hk Ha Hc). apply sumn_ext; intros m _. apply sumn_ext; intros n _. apply sumn_ext; intros e _. apply sumn_ext; intros f _. rewrite Y; unfold del3, del2; rewrite ?dlt_same, ?Zab, ?Zba, ?Zij, ?Zji; ring. }
  assert (R30 : sumn (noa d) (fun m => sumn (nob d) (fun n => sumn (nua d) (fun e => sumn (nub d) (fun f => (i_ab_oovv H m n e f) * (x_ab T e c i k) * (x_aab T a b f m j n))))) = sumn (nua d) (fun e => i_ab_oovv H i k e c * x_ab T e c i k)). { rewrite <- (s4o (noa d) (nob d) (nua d) (nub d) i k c (fun m n e f => i_ab_oovv H m n e f * x_ab T e c i k) Hi Hk Hc). apply sumn_ext; intros m _. apply sumn_ext; intros n _. apply sumn_ext; intros e _. apply sumn_ext; intros f _. rewrite Y; unfold del3, del2; rewrite ?dlt_same, ?Zab, ?Zba, ?Zij, ?Zji; ring. }
  assert (R31 : sumn (nob d) (fun m => sumn (noa d) (fun n => sumn (nua d) (fun e => sumn (nub d) (fun f => (i_ab_oovv H n m e f) * (x_ab T b c i m) * (x_aab T a e f n j k))))) = sumn (nob d) (fun m => i_ab_oovv H i m b c * x_ab T b c i m)). { rewrite <- (s4 (nob d) (noa d) (nua d) (nub d) i b c (fun m n e f => i_ab_oovv H n m e f * x_ab T b c i m) Hi Hb Hc). apply sumn_ext; intros m _. apply sumn_ext; intros n _. apply sumn_ext; intros e _. apply sumn_ext; intros f _. rewrite Y; unfold del3, del2; rewrite ?dlt_same, ?Zab, ?Zba, ?Zij, ?Zji; ring. }
  assert (R32 : sumn (noa d) (fun m => sumn (nob d) (fun n => sumn (nub d) (fun e => sumn (nua d) (fun f => (i_ab_oovv H m n f e) * (x_ab T a e j k) * (x_aab T f b c i m n))))) = sumn (nub d) (fun e => i_ab_oovv H j k a e * x_ab T a e j k)). { rewrite <- (s4o (noa d) (nob d) (nub d) (nua d) j k a (fun m n e f => i_ab_oovv H m n f e * x_ab T a e j k) Hj Hk Ha). apply sumn_ext; intros m _. apply sumn_ext; intros n _. apply sumn_ext; intros e _. apply sumn_ext; intros f _. rewrite Y; unfold del3, del2; rewrite ?dlt_same, ?Zab, ?Zba, ?Zij, ?Zji; ring. }
  assert (R33 : sumn (nob d) (fun m => sumn (noa d) (fun n => sumn (nua d) (fun e => sumn (nub d) (fun f => (i_ab_oovv H n m e f) * (x_ab T b c j m) * (x_aab T a e f i n k))))) = sumn (nob d) (fun m => i_ab_oovv H j m b c * x_ab T b c j m)). { rewrite <- (s4 (nob d) (noa d) (nua d) (nub d) j b c (fun m n e f => i_ab_oovv H n m e f * x_ab T b c j m) Hj Hb Hc). apply sumn_ext; intros m _. apply sumn_ext; intros n _. apply sumn_ext; intros e _. apply sumn_ext; intros f _. rewrite Y; unfold del3, del2; rewrite ?dlt_same, ?Zab, ?Zba, ?Zij, ?Zji; ring. }
  assert (R34 : sumn (noa d) (fun m => sumn (nob d) (fun n => sumn (nub d) (fun e => sumn (nua d) (fun f => (i_ab_oovv H m n f e) * (x_ab T b e j k) * (x_aab T a f c i m n))))) = sumn (nub d) (fun e => i_ab_oovv H j k b e * x_ab T b e j k)). { rewrite <- (s4o (noa d) (nob d) (nub d) (nua d) j k b (fun m n e f => i_ab_oovv H m n f e * x_ab T b e j k) Hj Hk Hb). apply sumn_ext; intros m _. apply sumn_ext; intros n _. apply sumn_ext; intros e _. apply sumn_ext; intros f _. rewrite Y; unfold del3, del2; rewrite ?dlt_same, ?Zab, ?Zba, ?Zij, ?Zji; ring. }
  assert (R35 : sumn (noa d) (fun m => sumn (nob d) (fun n => sumn (nua d) (fun e => sumn (nub d) (fun f => (i_ab_oovv H m n e f) * (x_ab T b c m k) * (x_aab T a e f i j n))))) = sumn (noa d) (fun m => i_ab_oovv H m k b c * x_ab T b c m k)). { rewrite <- (s4 (noa d) (nob d) (nua d) (nub d) k b c (fun m n e f => i_ab_oovv H m n e f * x_ab T b c m k) Hk Hb Hc). apply sumn_ext; intros m _. apply sumn_ext; intros n _. apply sumn_ext; intros e _. apply sumn_ext; intros f _. rewrite Y; unfold del3, del2; rewrite ?dlt_same, ?Zab, ?Zba, ?Zij, ?Zji; ring. }
  assert (R36 : sumn (noa d) (fun m => sumn (nob d) (fun n => sumn (nua d) (fun e => sumn (nub d) (fun f => (i_ab_oovv H m n e f) * (x_ab T e c j k) * (x_aab T a b f i m n))))) = sumn (nua d) (fun e => i_ab_oovv H j k e c * x_ab T e c j k)). { rewrite <- (s4o (noa d) (nob d) (nua d) (nub d) j k c (fun m n e f => i_ab_oovv H m n e f * x_ab T e c j k) Hj Hk Hc). apply sumn_ext; intros m _. apply sumn_ext; intros n _. apply sumn_ext; intros e _. apply sumn_ext; intros f _. rewrite Y; unfold del3, del2; rewrite ?dlt_same, ?Zab, ?Zba, ?Zij, ?Zji; ring. }
  unfold crdia_aab. rewrite R0, R1, R2, R3, R4, R5, R6, R7, R8, R9, R10, R11, R12, R13, R14, R15, R16, R17, R18, R19, R20, R21, R22, R23, R24, R25, R26, R27, R28, R29, R30, R31, R32, R33, R34, R35, R36. unfold crcc_DD_aab, crcc_DC_aab, crcc_DB_aab, crcc_h_aa_vvvv, crcc_h_ab_vvvv, crcc_h_bb_vvvv, crcc_d3aaa_v, crcc_d3aaa_o, crcc_d3aab_v, crcc_d3aab_o, crcc_d3abb_v, crcc_d3abb_o, crcc_d3bbb_v, crcc_d3bbb_o.
  rewrite ?(proj2 (Nat.leb_gt b a) Lab). field.
Qed.
Lemma diag_abb d H0 H T L a b c i j k : primary_antisym H -> antisym_amps T -> (a < nua d)%nat -> (b < nub d)%nat -> (c < nub d)%nat -> (i < noa d)%nat -> (j < nob d)%nat -> (k < nob d)%nat -> (b < c)%nat -> (j < k)%nat ->
  (forall p q r s t u, x_abb T p q r s t u = dlt p a * del2 b c q r * (dlt s i * del2 j k t u)) -> crdia_abb d H T a b c i j k = - crcc_DD_abb d H0 H T L a b c i j k.
Proof.
  intros PA AT Ha Hb Hc Hi Hj Hk Lbc Ljk Y. destruct AT as [T1 T2 T3 T4].
  assert (Zbc := dlt_lt b c Lbc). assert (Zcb := dlt_gt c b Lbc).
  assert (Zjk := dlt_lt j k Ljk). assert (Zkj := dlt_gt k j Ljk).
  assert (R0 : sumn (nua d) (fun e => (i_a_vv H a e) * (x_abb T e b c i j k)) = i_a_vv H a a). { rewrite <- (s1 (nua d) a (fun e => i_a_vv H a e) Ha). apply sumn_ext; intros e _. rewrite Y; unfold del3, del2; rewrite ?dlt_same, ?Zbc, ?Zcb, ?Zjk, ?Zkj; ring. }
  assert (R1 : sumn (noa d) (fun m => (i_a_oo H m i) * (x_abb T a b c m j k)) = i_a_oo H i i). { rewrite <- (s1 (noa d) i (fun m => i_a_oo H m i) Hi). apply sumn_ext; intros m _. rewrite Y; unfold del3, del2; rewrite ?dlt_same, ?Zbc, ?Zcb, ?Zjk, ?Zkj; ring. }
  assert (R2 : sumn (nub d) (fun e => (i_b_vv H b e) * (x_abb T a e c i j k)) = i_b_vv H b b). { rewrite <- (s1 (nub d) b (fun e => i_b_vv H b e) Hb). apply sumn_ext; intros e _. rewrite Y; unfold del3, del2; rewrite ?dlt_same, ?Zbc, ?Zcb, ?Zjk, ?Zkj; ring. }
  assert (R3 : sumn (nob d) (fun m => (i_b_oo H m j) * (x_abb T a b c i m k)) = i_b_oo H j j). { rewrite <- (s1 (nob d) j (fun m => i_b_oo H m j) Hj). apply sumn_ext; intros m _. rewrite Y; unfold del3, del2; rewrite ?dlt_same, ?Zbc, ?Zcb, ?Zjk, ?Zkj; ring. }
  assert (R4 : sumn (nub d) (fun e => (i_b_vv H c e) * (x_abb T a b e i j k)) = i_b_vv H c c). { rewrite <- (s1 (nub d) c (fun e => i_b_vv H c e) Hc). apply sumn_ext; intros e _. rewrite Y; unfold del3, del2; rewrite ?dlt_same, ?Zbc, ?Zcb, ?Zjk, ?Zkj; ring. }
  assert (R5 : sumn (nob d) (fun m => (i_b_oo H m k) * (x_abb T a b c i j m)) = i_b_oo H k k). { rewrite <- (s1 (nob d) k (fun m => i_b_oo H m k) Hk). apply sumn_ext; intros m _. rewrite Y; unfold del3, del2; rewrite ?dlt_same, ?Zbc, ?Zcb, ?Zjk, ?Zkj; ring. }
  assert (R6 : sumn (nua d) (fun e => sumn (nub d) (fun f => (i_ab_vvvv H a b e f) * (x_abb T e f c i j k))) = i_ab_vvvv H a b a b). { rewrite <- (s2 (nua d) (nub d) a b (fun e f => i_ab_vvvv H a b e f) Ha Hb). apply sumn_ext; intros e _. apply sumn_ext; intros f _. rewrite Y; unfold del3, del2; rewrite ?dlt_same, ?Zbc, ?Zcb, ?Zjk, ?Zkj; ring. }
  assert (R7 : sumn (noa d) (fun m => sumn (nob d) (fun n => (i_ab_oooo H m n i j) * (x_abb T a b c m n k))) = i_ab_oooo H i j i j). { rewrite <- (s2 (noa d) (nob d) i j (fun m n => i_ab_oooo H m n i j) Hi Hj). apply sumn_ext; intros m _. apply sumn_ext; intros n _. rewrite Y; unfold del3, del2; rewrite ?dlt_same, ?Zbc, ?Zcb, ?Zjk, ?Zkj; ring. }
  assert (R8 : sumn (nua d) (fun e => sumn (nub d) (fun f => (i_ab_vvvv H a c e f) * (x_abb T e b f i j k))) = i_ab_vvvv H a c a c). { rewrite <- (s2 (nua d) (nub d) a c (fun e f => i_ab_vvvv H a c e f) Ha Hc). apply sumn_ext; intros e _. apply sumn_ext; intros f _. rewrite Y; unfold del3, del2; rewrite ?dlt_same, ?Zbc, ?Zcb, ?Zjk, ?Zkj; ring. }
  assert (R9 : sumn (noa d) (fun m => sumn (nob d) (fun n => (i_ab_oooo H m n i k) * (x_abb T a b c m j n))) = i_ab_oooo H i k i k). { rewrite <- (s2 (noa d) (nob d) i k (fun m n => i_ab_oooo H m n i k) Hi Hk). apply sumn_ext; intros m _. apply sumn_ext; intros n _. rewrite Y; unfold del3, del2; rewrite ?dlt_same, ?Zbc, ?Zcb, ?Zjk, ?Zkj; ring. }
  assert (R10 : sumn (nub d) (fun e => sumn (nub d) (fun f => (i_bb_vvvv H b c e f) * (x_abb T a e f i j k))) = i_bb_vvvv H b c b c - i_bb_vvvv H b c c b). { rewrite <- (s2a (nub d) b c (fun e f => i_bb_vvvv H b c e f) Hb Hc). apply sumn_ext; intros e _. apply sumn_ext; intros f _. rewrite Y; unfold del3, del2; rewrite ?dlt_same, ?Zbc, ?Zcb, ?Zjk, ?Zkj; ring. }
  assert (Q10 : i_bb_vvvv H b c b c - i_bb_vvvv H b c c b = 2 * i_bb_vvvv H b c b c) by (rewrite (pa_bb_vvvv_34 H PA b c c b); ring).
  rewrite Q10 in R10.
  assert (R11 : sumn (nob d) (fun m => sumn (nob d) (fun n => (i_bb_oooo H m n j k) * (x_abb T a b c i m n))) = i_bb_oooo H j k j k - i_bb_oooo H k j j k). { rewrite <- (s2a (nob d) j k (fun m n => i_bb_oooo H m n j k) Hj Hk). apply sumn_ext; intros m _. apply sumn_ext; intros n _. rewrite Y; unfold del3, del2; rewrite ?dlt_same, ?Zbc, ?Zcb, ?Zjk, ?Zkj; ring. }
  assert (Q11 : i_bb_oooo H j k j k - i_bb_oooo H k j j k = 2 * i_bb_oooo H k j k j) by (rewrite (pa_bb_oooo_12 H PA j k j k), (pa_bb_oooo_34 H PA k j j k); ring).
  rewrite Q11 in R11.
  assert (R12 : sumn (nua d) (fun e => sumn (noa d) (fun m => (i_aa_voov H a m i e) * (x_abb T e b c m j k))) = i_aa_voov H a i i a). { rewrite <- (s2 (nua d) (noa d) a i (fun e m => i_aa_voov H a m i e) Ha Hi). apply sumn_ext; intros e _. apply sumn_ext; intros m _. rewrite Y; unfold del3, del2; rewrite ?dlt_same, ?Zbc, ?Zcb, ?Zjk, ?Zkj; ring. }
  assert (R13 : sumn (nua d) (fun e => sumn (nob d) (fun m => (i_ab_vovo H a m e j) * (x_abb T e b c i m k))) = i_ab_vovo H a j a j). { rewrite <- (s2 (nua d) (nob d) a j (fun e m => i_ab_vovo H a m e j) Ha Hj). apply sumn_ext; intros e _. apply sumn_ext; intros m _. rewrite Y; unfold del3, del2; rewrite ?dlt_same, ?Zbc, ?Zcb, ?Zjk, ?Zkj; ring. }
  assert (R14 : sumn (nua d) (fun e => sumn (nob d) (fun m => (i_ab_vovo H a m e k) * (x_abb T e b c i j m))) = i_ab_vovo H a k a k). { rewrite <- (s2 (nua d) (nob d) a k (fun e m => i_ab_vovo H a m e k) Ha Hk). apply sumn_ext; intros e _. apply sumn_ext; intros m _. rewrite Y; unfold del3, del2; rewrite ?dlt_same, ?Zbc, ?Zcb, ?Zjk, ?Zkj; ring. }
  assert (R15 : sumn (nub d) (fun e => sumn (noa d) (fun m => (i_ab_ovov H m b i e) * (x_abb T a e c m j k))) = i_ab_ovov H i b i b). { rewrite <- (s2 (nub d) (noa d) b i (fun e m => i_ab_ovov H m b i e) Hb Hi). apply sumn_ext; intros e _. apply sumn_ext; intros m _. rewrite Y; unfold del3, del2; rewrite ?dlt_same, ?Zbc, ?Zcb, ?Zjk, ?Zkj; ring. }
  assert (R16 : sumn (nub d) (fun e => sumn (nob d) (fun m => (i_bb_voov H b m j e) * (x_abb T a e c i m k))) = i_bb_voov H b j j b). { rewrite <- (s2 (nub d) (nob d) b j (fun e m => i_bb_voov H b m j e) Hb Hj). apply sumn_ext; intros e _. apply sumn_ext; intros m _. rewrite Y; unfold del3, del2; rewrite ?dlt_same, ?Zbc, ?Zcb, ?Zjk, ?Zkj; ring. }
  assert (R17 : sumn (nub d) (fun e => sumn (nob d) (fun m => (i_bb_voov H b m k e) * (x_abb T a e c i j m))) = i_bb_voov H b k k b). { rewrite <- (s2 (nub d) (nob d) b k (fun e m => i_bb_voov H b m k e) Hb Hk). apply sumn_ext; intros e _. apply sumn_ext; intros m _. rewrite Y; unfold del3, del2; rewrite ?dlt_same, ?Zbc, ?Zcb, ?Zjk, ?Zkj; ring. }
  assert (R18 : sumn (nub d) (fun e => sumn (noa d) (fun m => (i_ab_ovov H m c i e) * (x_abb T a b e m j k))) = i_ab_ovov H i c i c). { rewrite <- (s2 (nub d) (noa d) c i (fun e m => i_ab_ovov H m c i e) Hc Hi). apply sumn_ext; intros e _. apply sumn_ext; intros m _. rewrite Y; unfold del3, del2; rewrite ?dlt_same, ?Zbc, ?Zcb, ?Zjk, ?Zkj; ring. }
  assert (R19 : sumn (nub d) (fun e => sumn (nob d) (fun m => (i_bb_voov H c m j e) * (x_abb T a b e i m k))) = i_bb_voov H c j j c). { rewrite <- (s2 (nub d) (nob d) c j (fun e m => i_bb_voov H c m j e) Hc Hj). apply sumn_ext; intros e _. apply sumn_ext; intros m _. rewrite Y; unfold del3, del2; rewrite ?dlt_same, ?Zbc, ?Zcb, ?Zjk, ?Zkj; ring. }
  assert (R20 : sumn (nub d) (fun e => sumn (nob d) (fun m => (i_bb_voov H c m k e) * (x_abb T a b e i j m))) = i_bb_voov H c k k c). { rewrite <- (s2 (nub d) (nob d) c k (fun e m => i_bb_voov H c m k e) Hc Hk). apply sumn_ext; intros e _. apply sumn_ext; intros m _. rewrite Y; unfold del3, del2; rewrite ?dlt_same, ?Zbc, ?Zcb, ?Zjk, ?Zkj; ring. }
  assert (R21 : sumn (nob d) (fun m => sumn (noa d) (fun n => sumn (nua d) (fun e => sumn (nub d) (fun f => (i_ab_oovv H n m e f) * (x_ab T a b i m) * (x_abb T e f c n j k))))) = sumn (nob d) (fun m => i_ab_oovv H i m a b * x_ab T a b i m)). { rewrite <- (s4 (nob d) (noa d) (nua d) (nub d) i a b (fun m n e f => i_ab_oovv H n m e f * x_ab T a b i m) Hi Ha Hb). apply sumn_ext; intros m _. apply sumn_ext; intros n _. apply sumn_ext; intros e _. apply sumn_ext; intros f _. rewrite Y; unfold del3, del2; rewrite ?dlt_same, ?Zbc, ?Zcb, ?Zjk, ?Zkj; ring. }
  assert (R22 : sumn (noa d) (fun m => sumn (nob d) (fun n => sumn (nub d) (fun e => sumn (nua d) (fun f => (i_ab_oovv H m n f e) * (x_ab T a e i j) * (x_abb T f b c m n k))))) = sumn (nub d) (fun e => i_ab_oovv H i j a e * x_ab T a e i j)). { rewrite <- (s4o (noa d) (nob d) (nub d) (nua d) i j a (fun m n e f => i_ab_oovv H m n f e * x_ab T a e i j) Hi Hj Ha). apply sumn_ext; intros m _. apply sumn_ext; intros n _. apply sumn_ext; intros e _. apply sumn_ext; intros f _. rewrite Y; unfold del3, del2; rewrite ?dlt_same, ?Zbc, ?Zcb, ?Zjk, ?Zkj; ring. }
  assert (R23 : sumn (noa d) (fun m => sumn (nob d) (fun n => sumn (nua d) (fun e => sumn (nub d) (fun f => (i_ab_oovv H m n e f) * (x_ab T a b m j) * (x_abb T e f c i n k))))) = sumn (noa d) (fun m => i_ab_oovv H m j a b * x_ab T a b m j)). { rewrite <- (s4 (noa d) (nob d) (nua d) (nub d) j a b (fun m n e f => i_ab_oovv H m n e f * x_ab T a b m j) Hj Ha Hb). apply sumn_ext; intros m _. apply sumn_ext; intros n _. apply sumn_ext; intros e _. apply sumn_ext; intros f _. rewrite Y; unfold del3, del2; rewrite ?dlt_same, ?Zbc, ?Zcb, ?Zjk, ?Zkj; ring. }
  assert (R24 : sumn (noa d) (fun m => sumn (nob d) (fun n => sumn (nua d) (fun e => sumn (nub d) (fun f => (i_ab_oovv H m n e f) * (x_ab T e b i j) * (x_abb T a f c m n k))))) = sumn (nua d) (fun e => i_ab_oovv H i j e b * x_ab T e b i j)). { rewrite <- (s4o (noa d) (nob d) (nua d) (nub d) i j b (fun m n e f => i_ab_oovv H m n e f * x_ab T e b i j) Hi Hj Hb). apply sumn_ext; intros m _. apply sumn_ext; intros n _. apply sumn_ext; intros e _. apply sumn_ext; intros f _. rewrite Y; unfold del3, del2; rewrite ?dlt_same, ?Zbc, ?Zcb, ?Zjk, ?Zkj; ring. }
  assert (R25 : sumn (noa d) (fun m => sumn (nob d) (fun n => sumn (nua d) (fun e => sumn (nub d) (fun f => (i_ab_oovv H m n e f) * (x_ab T a b m k) * (x_abb T e f c i j n))))) = sumn (noa d) (fun m => i_ab_oovv H m k a b * x_ab T a b m k)). { rewrite <- (s4 (noa d) (nob d) (nua d) (nub d) k a b (fun m n e f => i_ab_oovv H m n e f * x_ab T a b m k) Hk Ha Hb). apply sumn_ext; intros m _. apply sumn_ext; intros n _. apply sumn_ext; intros e _. apply sumn_ext; intros f _. rewrite Y; unfold del3, del2; rewrite ?dlt_same, ?Zbc, ?Zcb, ?Zjk, ?Zkj; ring. }
  assert (R26 : sumn (noa d) (fun m => sumn (nob d) (fun n => sumn (nua d) (fun e => sumn (nub d) (fun f => (i_ab_oovv H m n e f) * (x_ab T e c i j) * (x_abb T a b f m n k))))) = sumn (nua d) (fun e => i_ab_oovv H i j e c * x_ab T e c i j)). { rewrite <- (s4o (noa d) (nob d) (nua d) (nub d) i j c (fun m n e f => i_ab_oovv H m n e f * x_ab T e c i j) Hi Hj Hc). apply sumn_ext; intros m _. apply sumn_ext; intros n _. apply sumn_ext; intros e _. apply sumn_ext; intros f _. rewrite Y; unfold del3, del2; rewrite ?dlt_same, ?Zbc, ?Zcb, ?Zjk, ?Zkj; ring. }
  assert (R27 : sumn (nob d) (fun m => sumn (noa d) (fun n => sumn (nua d) (fun e => sumn (nub d) (fun f => (i_ab_oovv H n m e f) * (x_ab T a c i m) * (x_abb T e b f n j k))))) = sumn (nob d) (fun m => i_ab_oovv H i m a c * x_ab T a c i m)). { rewrite <- (s4 (nob d) (noa d) (nua d) (nub d) i a c (fun m n e f => i_ab_oovv H n m e f * x_ab T a c i m) Hi Ha Hc). apply sumn_ext; intros m _. apply sumn_ext; intros n _. apply sumn_ext; intros e _. apply sumn_ext; intros f _. rewrite Y; unfold del3, del2; rewrite ?dlt_same, ?Zbc, ?Zcb, ?Zjk, ?Zkj; ring. }
  assert (R28 : sumn (noa d) (fun m => sumn (nob d) (fun n => sumn (nub d) (fun e => sumn (nua d) (fun f => (i_ab_oovv H m n f e) * (x_ab T a e i k) * (x_abb T f b c m j n))))) = sumn (nub d) (fun e => i_ab_oovv H i k a e * x_ab T a e i k)). { rewrite <- (s4o (noa d) (nob d) (nub d) (nua d) i k a (fun m n e f => i_ab_oovv H m n f e * x_ab T a e i k) Hi Hk Ha). apply sumn_ext; intros m _. apply sumn_ext; intros n _. apply sumn_ext; intros e _. apply sumn_ext; intros f _. rewrite Y; unfold del3, del2; rewrite ?dlt_same, ?Zbc, ?Zcb, ?Zjk, ?Zkj; ring. }
  assert (R29 : sumn (noa d) (fun m => sumn (nob d) (fun n => sumn (nua d) (fun e => sumn (nub d) (fun f => (i_ab_oovv H m n e f) * (x_ab T a c m j) * (x_abb T e b f i n k))))) = sumn (noa d) (fun m => i_ab_oovv H m j a c * x_ab T a c m j)). { rewrite <- (s4 (noa d) (nob d) (nua d) (nub d) j a c (fun m n e f => i_ab_oovv H m n e f * x_ab T a c m j) Hj Ha Hc). apply sumn_ext; intros m _. apply sumn_ext; intros n _. apply sumn_ext; intros e _. apply sumn_ext; intros f _. rewrite Y; unfold del3, del2; rewrite ?dlt_same, ?Zbc, ?Zcb, ?Zjk, ?Zkj; ring. }
  assert (R30 : sumn (noa d) (fun m => sumn (nob d) (fun n => sumn (nua d) (fun e => sumn (nub d) (fun f => (i_ab_oovv H m n e f) * (x_ab T e b i k) * (x_abb T a f c m j n))))) = sumn (nua d) (fun e => i_ab_oovv H i k e b * x_ab T e b i k)). { rewrite <- (s4o (noa d) (nob d) (nua d) (nub d) i k b (fun m n e f => i_ab_oovv H m n e f * x_ab T e b i k) Hi Hk Hb). apply sumn_ext; intros m _. apply sumn_ext; intros n _. apply sumn_ext; intros e _. apply sumn_ext; intros f _. rewrite Y; unfold del3, del2; rewrite ?dlt_same, ?Zbc, ?Zcb, ?Zjk, ?Zkj; ring. }
  assert (R31 : sumn (noa d) (fun m => sumn (nob d) (fun n => sumn (nua d) (fun e => sumn (nub d) (fun f => (i_ab_oovv H m n e f) * (x_ab T a c m k) * (x_abb T e b f i j n))))) = sumn (noa d) (fun m => i_ab_oovv H m k a c * x_ab T a c m k)). { rewrite <- (s4 (noa d) (nob d) (nua d) (nub d) k a c (fun m n e f => i_ab_oovv H m n e f * x_ab T a c m k) Hk Ha Hc). apply sumn_ext; intros m _. apply sumn_ext; intros n _. apply sumn_ext; intros e _. apply sumn_ext; intros f _. rewrite Y; unfold del3, del2; rewrite ?dlt_same, ?Zbc, ?Zcb, ?Zjk, ?Zkj; ring. }
  assert (R32 : sumn (noa d) (fun m => sumn (nob d) (fun n => sumn (nua d) (fun e => sumn (nub d) (fun f => (i_ab_oovv H m n e f) * (x_ab T e c i k) * (x_abb T a b f m j n))))) = sumn (nua d) (fun e => i_ab_oovv H i k e c * x_ab T e c i k)). { rewrite <- (s4o (noa d) (nob d) (nua d) (nub d) i k c (fun m n e f => i_ab_oovv H m n e f * x_ab T e c i k) Hi Hk Hc). apply sumn_ext; intros m _. apply sumn_ext; intros n _. apply sumn_ext; intros e _. apply sumn_ext; intros f _. rewrite Y; unfold del3, del2; rewrite ?dlt_same, ?Zbc, ?Zcb, ?Zjk, ?Zkj; ring. }
  assert (R33 : sumn (nob d) (fun m => sumn (nob d) (fun n => sumn (nub d) (fun e => sumn (nub d) (fun f => (i_bb_oovv H m n e f) * (x_bb T b c m j) * (x_abb T a e f i n k))))) = sumn (nob d) (fun m => i_bb_oovv H m j b c * x_bb T b c m j - i_bb_oovv H m j c b * x_bb T b c m j)). { rewrite <- (s4a (nob d) (nob d) (nub d) j b c (fun m n e f => i_bb_oovv H m n e f * x_bb T b c m j) Hj Hb Hc). apply sumn_ext; intros m _. apply sumn_ext; intros n _. apply sumn_ext; intros e _. apply sumn_ext; intros f _. rewrite Y; unfold del3, del2; rewrite ?dlt_same, ?Zbc, ?Zcb, ?Zjk, ?Zkj; ring. }
  assert (Q33 : sumn (nob d) (fun m => i_bb_oovv H m j b c * x_bb T b c m j - i_bb_oovv H m j c b * x_bb T b c m j) = 2 * sumn (nob d) (fun m => i_bb_oovv H j m b c * x_bb T b c j m)).
  { rewrite <- sumn_scal. apply sumn_ext; intros m _. rewrite (pa_bb_oovv_34 H PA m j c b), (pa_bb_oovv_12 H PA m j b c), (T4 b c m j). ring. }
  rewrite Q33 in R33.
  assert (R34 : sumn (nob d) (fun m => sumn (nob d) (fun n => sumn (nub d) (fun e => sumn (nub d) (fun f => (i_bb_oovv H m n e f) * (x_bb T e b j k) * (x_abb T a f c i m n))))) = sumn (nub d) (fun e => i_bb_oovv H j k e b * x_bb T e b j k - i_bb_oovv H k j e b * x_bb T e b j k)). { rewrite <- (s4ob (nob d) (nub d) (nub d) j k b (fun m n e f => i_bb_oovv H m n e f * x_bb T e b j k) Hj Hk Hb). apply sumn_ext; intros m _. apply sumn_ext; intros n _. apply sumn_ext; intros e _. apply sumn_ext; intros f _. rewrite Y; unfold del3, del2; rewrite ?dlt_same, ?Zbc, ?Zcb, ?Zjk, ?Zkj; ring. }
  assert (Q34 : sumn (nub d) (fun e => i_bb_oovv H j k e b * x_bb T e b j k - i_bb_oovv H k j e b * x_bb T e b j k) = 2 * sumn (nub d) (fun e => i_bb_oovv H j k b e * x_bb T b e j k)).
  { rewrite <- sumn_scal. apply sumn_ext; intros e _. rewrite (pa_bb_oovv_12 H PA k j e b), (pa_bb_oovv_34 H PA j k e b), (T3 e b j k). ring. }
  rewrite Q34 in R34.
  assert (R35 : sumn (nob d) (fun m => sumn (nob d) (fun n => sumn (nub d) (fun e => sumn (nub d) (fun f => (i_bb_oovv H m n e f) * (x_bb T b c m k) * (x_abb T a e f i j n))))) = sumn (nob d) (fun m => i_bb_oovv H m k b c * x_bb T b c m k - i_bb_oovv H m k c b * x_bb T b c m k)). { rewrite <- (s4a (nob d) (nob d) (nub d) k b c (fun m n e f => i_bb_oovv H m n e f * x_bb T b c m k) Hk Hb Hc). apply sumn_ext; intros m _. apply sumn_ext; intros n _. apply sumn_ext; intros e _. apply sumn_ext; intros f _. rewrite Y; unfold del3, del2; rewrite ?dlt_same, ?Zbc, ?Zcb, ?Zjk, ?Zkj; ring. }
  assert (Q35 : sumn (nob d) (fun m => i_bb_oovv H m k b c * x_bb T b c m k - i_bb_oovv H m k c b * x_bb T b c m k) = 2 * sumn (nob d) (fun m => i_bb_oovv H k m b c * x_bb T b c k m)).
  { rewrite <- sumn_scal. apply sumn_ext; intros m _. rewrite (pa_bb_oovv_34 H PA m k c b), (pa_bb_oovv_12 H PA m k b c), (T4 b c m k). ring. }
  rewrite Q35 in R35.
  assert (R36 : sumn (nob d) (fun m => sumn (nob d) (fun n => sumn (nub d) (fun e => sumn (nub d) (fun f => (i_bb_oovv H m n e f) * (x_bb T e c j k) * (x_abb T a b f i m n))))) = sumn (nub d) (fun e => i_bb_oovv H j k e c * x_bb T e c j k - i_bb_oovv H k j e c * x_bb T e c j k)). { rewrite <- (s4ob (nob d) (nub d) (nub d) j k c (fun m n e f => i_bb_oovv H m n e f * x_bb T e c j k) Hj Hk Hc). apply sumn_ext; intros m _. apply sumn_ext; intros n _. apply sumn_ext; intros e _. apply sumn_ext; intros f _. rewrite Y; unfold del3, del2; rewrite ?dlt_same, ?Zbc, ?Zcb, ?Zjk, ?Zkj; ring. }
  assert (Q36 : sumn (nub d) (fun e => i_bb_oovv H j k e c * x_bb T e c j k - i_bb_oovv H k j e c * x_bb T e c j k) = 2 * sumn (nub d) (fun e => i_bb_oovv H j k c e * x_bb T c e j k)).
  { rewrite <- sumn_scal. apply sumn_ext; intros e _. rewrite (pa_bb_oovv_12 H PA k j e c), (pa_bb_oovv_34 H PA j k e c), (T3 e c j k). ring. }
  rewrite Q36 in R36.
  unfold crdia_abb. rewrite R0, R1, R2, R3, R4, R5, R6, R7, R8, R9, R10, R11, R12, R13, R14, R15, R16, R17, R18, R19, R20, R21, R22, R23, R24, R25, R26, R27, R28, R29, R30, R31, R32, R33, R34, R35, R36. unfold crcc_DD_abb, crcc_DC_abb, crcc_DB_abb, crcc_h_aa_vvvv, crcc_h_ab_vvvv, crcc_h_bb_vvvv, crcc_d3aaa_v, crcc_d3aaa_o, crcc_d3aab_v, crcc_d3aab_o, crcc_d3abb_v, crcc_d3abb_o, crcc_d3bbb_v, crcc_d3bbb_o.
  rewrite ?(proj2 (Nat.leb_gt c b) Lbc). field.
Qed.
Lemma diag_bbb d H0 H T L a b c i j k : primary_antisym H -> antisym_amps T -> (a < nub d)%nat -> (b < nub d)%nat -> (c < nub d)%nat -> (i < nob d)%nat -> (j < nob d)%nat -> (k < nob d)%nat -> (a < b)%nat -> (a < c)%nat -> (b < c)%nat -> (i < j)%nat -> (i < k)%nat -> (j < k)%nat ->
  (forall p q r s t u, x_bbb T p q r s t u = del3 a b c p q r * del3 i j k s t u) -> crdia_bbb d H T a b c i j k = - crcc_DD_bbb d H0 H T L a b c i j k.
Proof.
  intros PA AT Ha Hb Hc Hi Hj Hk Lab Lac Lbc Lij Lik Ljk Y. destruct AT as [T1 T2 T3 T4].
  assert (Zab := dlt_lt a b Lab). assert (Zba := dlt_gt b a Lab).
  assert (Zac := dlt_lt a c Lac). assert (Zca := dlt_gt c a Lac).
  assert (Zbc := dlt_lt b c Lbc). assert (Zcb := dlt_gt c b Lbc).
  assert (Zij := dlt_lt i j Lij). assert (Zji := dlt_gt j i Lij).
  assert (Zik := dlt_lt i k Lik). assert (Zki := dlt_gt k i Lik).
  assert (Zjk := dlt_lt j k Ljk). assert (Zkj := dlt_gt k j Ljk).
  assert (R0 : sumn (nub d) (fun e => (i_b_vv H a e) * (x_bbb T e b c i j k)) = i_b_vv H a a). { rewrite <- (s1 (nub d) a (fun e => i_b_vv H a e) Ha). apply sumn_ext; intros e _. rewrite Y; unfold del3, del2; rewrite ?dlt_same, ?Zab, ?Zba, ?Zac, ?Zca, ?Zbc, ?Zcb, ?Zij, ?Zji, ?Zik, ?Zki, ?Zjk, ?Zkj; ring. }
  assert (R1 : sumn (nob d) (fun m => (i_b_oo H m i) * (x_bbb T a b c m j k)) = i_b_oo H i i). { rewrite <- (s1 (nob d) i (fun m => i_b_oo H m i) Hi). apply sumn_ext; intros m _. rewrite Y; unfold del3, del2; rewrite ?dlt_same, ?Zab, ?Zba, ?Zac, ?Zca, ?Zbc, ?Zcb, ?Zij, ?Zji, ?Zik, ?Zki, ?Zjk, ?Zkj; ring. }
  assert (R2 : sumn (nub d) (fun e => (i_b_vv H b e) * (x_bbb T a e c i j k)) = i_b_vv H b b). { rewrite <- (s1 (nub d) b (fun e => i_b_vv H b e) Hb). apply sumn_ext; intros e _. rewrite Y; unfold del3, del2; rewrite ?dlt_same, ?Zab, ?Zba, ?Zac, ?Zca, ?Zbc, ?Zcb, ?Zij, ?Zji, ?Zik, ?Zki, ?Zjk, ?Zkj; ring. }
  assert (R3 : sumn (nob d) (fun m => (i_b_oo H m j) * (x_bbb T a b c i m k)) = i_b_oo H j j). { rewrite <- (s1 (nob d) j (fun m => i_b_oo H m j) Hj). apply sumn_ext; intros m _. rewrite Y; unfold del3, del2; rewrite ?dlt_same, ?Zab, ?Zba, ?Zac, ?Zca, ?Zbc, ?Zcb, ?Zij, ?Zji, ?Zik, ?Zki, ?Zjk, ?Zkj; ring. }
  assert (R4 : sumn (nub d) (fun e => (i_b_vv H c e) * (x_bbb T a b e i j k)) = i_b_vv H c c). { rewrite <- (s1 (nub d) c (fun e => i_b_vv H c e) Hc). apply sumn_ext; intros e _. rewrite Y; unfold del3, del2; rewrite ?dlt_same, ?Zab, ?Zba, ?Zac, ?Zca, ?Zbc, ?Zcb, ?Zij, ?Zji, ?Zik, ?Zki, ?Zjk, ?Zkj; ring. }
  assert (R5 : sumn (nob d) (fun m => (i_b_oo H m k) * (x_bbb T a b c i j m)) = i_b_oo H k k). { rewrite <- (s1 (nob d) k (fun m => i_b_oo H m k) Hk). apply sumn_ext; intros m _. rewrite Y; unfold del3, del2; rewrite ?dlt_same, ?Zab, ?Zba, ?Zac, ?Zca, ?Zbc, ?Zcb, ?Zij, ?Zji, ?Zik, ?Zki, ?Zjk, ?Zkj; ring. }
  assert (R6 : sumn (nub d) (fun e => sumn (nub d) (fun f => (i_bb_vvvv H a b e f) * (x_bbb T e f c i j k))) = i_bb_vvvv H a b a b - i_bb_vvvv H a b b a). { rewrite <- (s2a (nub d) a b (fun e f => i_bb_vvvv H a b e f) Ha Hb). apply sumn_ext; intros e _. apply sumn_ext; intros f _. rewrite Y; unfold del3, del2; rewrite ?dlt_same, ?Zab, ?Zba, ?Zac, ?Zca, ?Zbc, ?Zcb, ?Zij, ?Zji, ?Zik, ?Zki, ?Zjk, ?Zkj; ring. }
  assert (Q6 : i_bb_vvvv H a b a b - i_bb_vvvv H a b b a = 2 * i_bb_vvvv H a b a b) by (rewrite (pa_bb_vvvv_34 H PA a b b a); ring).
  rewrite Q6 in R6.
  assert (R7 : sumn (nob d) (fun m => sumn (nob d) (fun n => (i_bb_oooo H m n i j) * (x_bbb T a b c m n k))) = i_bb_oooo H i j i j - i_bb_oooo H j i i j). { rewrite <- (s2a (nob d) i j (fun m n => i_bb_oooo H m n i j) Hi Hj). apply sumn_ext; intros m _. apply sumn_ext; intros n _. rewrite Y; unfold del3, del2; rewrite ?dlt_same, ?Zab, ?Zba, ?Zac, ?Zca, ?Zbc, ?Zcb, ?Zij, ?Zji, ?Zik, ?Zki, ?Zjk, ?Zkj; ring. }
  assert (Q7 : i_bb_oooo H i j i j - i_bb_oooo H j i i j = 2 * i_bb_oooo H j i j i) by (rewrite (pa_bb_oooo_12 H PA i j i j), (pa_bb_oooo_34 H PA j i i j); ring).
  rewrite Q7 in R7.
  assert (R8 : sumn (nub d) (fun e => sumn (nub d) (fun f => (i_bb_vvvv H a c e f) * (x_bbb T e b f i j k))) = i_bb_vvvv H a c a c - i_bb_vvvv H a c c a). { rewrite <- (s2a (nub d) a c (fun e f => i_bb_vvvv H a c e f) Ha Hc). apply sumn_ext; intros e _. apply sumn_ext; intros f _. rewrite Y; unfold del3, del2; rewrite ?dlt_same, ?Zab, ?Zba, ?Zac, ?Zca, ?Zbc, ?Zcb, ?Zij, ?Zji, ?Zik, ?Zki, ?Zjk, ?Zkj; ring. }
  assert (Q8 : i_bb_vvvv H a c a c - i_bb_vvvv H a c c a = 2 * i_bb_vvvv H a c a c) by (rewrite (pa_bb_vvvv_34 H PA a c c a); ring).
  rewrite Q8 in R8.
  assert (R9 : sumn (nob d) (fun m => sumn (nob d) (fun n => (i_bb_oooo H m n i k) * (x_bbb T a b c m j n))) = i_bb_oooo H i k i k - i_bb_oooo H k i i k). { rewrite <- (s2a (nob d) i k (fun m n => i_bb_oooo H m n i k) Hi Hk). apply sumn_ext; intros m _. apply sumn_ext; intros n _. rewrite Y; unfold del3, del2; rewrite ?dlt_same, ?Zab, ?Zba, ?Zac, ?Zca, ?Zbc, ?Zcb, ?Zij, ?Zji, ?Zik, ?Zki, ?Zjk, ?Zkj; ring. }
  assert (Q9 : i_bb_oooo H i k i k - i_bb_oooo H k i i k = 2 * i_bb_oooo H k i k i) by (rewrite (pa_bb_oooo_12 H PA i k i k), (pa_bb_oooo_34 H PA k i i k); ring).
  rewrite Q9 in R9.
  assert (R10 : sumn (nub d) (fun e => sumn (nub d) (fun f => (i_bb_vvvv H b c e f) * (x_bbb T a e f i j k))) = i_bb_vvvv H b c b c - i_bb_vvvv H b c c b). { rewrite <- (s2a (nub d) b c (fun e f => i_bb_vvvv H b c e f) Hb Hc). apply sumn_ext; intros e _. apply sumn_ext; intros f _. rewrite Y; unfold del3, del2; rewrite ?dlt_same, ?Zab, ?Zba, ?Zac, ?Zca, ?Zbc, ?Zcb, ?Zij, ?Zji, ?Zik, ?Zki, ?Zjk, ?Zkj; ring. }
  assert (Q10 : i_bb_vvvv H b c b c - i_bb_vvvv H b c c b = 2 * i_bb_vvvv H b c b c) by (rewrite (pa_bb_vvvv_34 H PA b c c b); ring).
  rewrite Q10 in R10.
  assert (R11 : sumn (nob d) (fun m => sumn (nob d) (fun n => (i_bb_oooo H m n j k) * (x_bbb T a b c i m n))) = i_bb_oooo H j k j k - i_bb_oooo H k j j k). { rewrite <- (s2a (nob d) j k (fun m n => i_bb_oooo H m n j k) Hj Hk). apply sumn_ext; intros m _. apply sumn_ext; intros n _. rewrite Y; unfold del3, del2; rewrite ?dlt_same, ?Zab, ?Zba, ?Zac, ?Zca, ?Zbc, ?Zcb, ?Zij, ?Zji, ?Zik, ?Zki, ?Zjk, ?Zkj; ring. }
  assert (Q11 : i_bb_oooo H j k j k - i_bb_oooo H k j j k = 2 * i_bb_oooo H k j k j) by (rewrite (pa_bb_oooo_12 H PA j k j k), (pa_bb_oooo_34 H PA k j j k); ring).
  rewrite Q11 in R11.
  assert (R12 : sumn (nub d) (fun e => sumn (nob d) (fun m => (i_bb_voov H a m i e) * (x_bbb T e b c m j k))) = i_bb_voov H a i i a). { rewrite <- (s2 (nub d) (nob d) a i (fun e m => i_bb_voov H a m i e) Ha Hi). apply sumn_ext; intros e _. apply sumn_ext; intros m _. rewrite Y; unfold del3, del2; rewrite ?dlt_same, ?Zab, ?Zba, ?Zac, ?Zca, ?Zbc, ?Zcb, ?Zij, ?Zji, ?Zik, ?Zki, ?Zjk, ?Zkj; ring. }
  assert (R13 : sumn (nub d) (fun e => sumn (nob d) (fun m => (i_bb_voov H a m j e) * (x_bbb T e b c i m k))) = i_bb_voov H a j j a). { rewrite <- (s2 (nub d) (nob d) a j (fun e m => i_bb_voov H a m j e) Ha Hj). apply sumn_ext; intros e _. apply sumn_ext; intros m _. rewrite Y; unfold del3, del2; rewrite ?dlt_same, ?Zab, ?Zba, ?Zac, ?Zca, ?Zbc, ?Zcb, ?Zij, ?Zji, ?Zik, ?Zki, ?Zjk, ?Zkj; ring. }
  assert (R14 : sumn (nub d) (fun e => sumn (nob d) (fun m => (i_bb_voov H a m k e) * (x_bbb T e b c i j m))) = i_bb_voov H a k k a). { rewrite <- (s2 (nub d) (nob d) a k (fun e m => i_bb_voov H a m k e) Ha Hk). apply sumn_ext; intros e _. apply sumn_ext; intros m _. rewrite Y; unfold del3, del2; rewrite ?dlt_same, ?Zab, ?Zba, ?Zac, ?Zca, ?Zbc, ?Zcb, ?Zij, ?Zji, ?Zik, ?Zki, ?Zjk, ?Zkj; ring. }
  assert (R15 : sumn (nub d) (fun e => sumn (nob d) (fun m => (i_bb_voov H b m i e) * (x_bbb T a e c m j k))) = i_bb_voov H b i i b). { rewrite <- (s2 (nub d) (nob d) b i (fun e m => i_bb_voov H b m i e) Hb Hi). apply sumn_ext; intros e _. apply sumn_ext; intros m _. rewrite Y; unfold del3, del2; rewrite ?dlt_same, ?Zab, ?Zba, ?Zac, ?Zca, ?Zbc, ?Zcb, ?Zij, ?Zji, ?Zik, ?Zki, ?Zjk, ?Zkj; ring. }
  assert (R16 : sumn (nub d) (fun e => sumn (nob d) (fun m => (i_bb_voov H b m j e) * (x_bbb T a e c i m k))) = i_bb_voov H b j j b). { rewrite <- (s2 (nub d) (nob d) b j (fun e m => i_bb_voov H b m j e) Hb Hj). apply sumn_ext; intros e _. apply sumn_ext; intros m _. rewrite Y; unfold del3, del2; rewrite ?dlt_same, ?Zab, ?Zba, ?Zac, ?Zca, ?Zbc, ?Zcb, ?Zij, ?Zji, ?Zik, ?Zki, ?Zjk, ?Zkj; ring. }
  assert (R17 : sumn (nub d) (fun e => sumn (nob d) (fun m => (i_bb_voov H b m k e) * (x_bbb T a e c i j m))) = i_bb_voov H b k k b). { rewrite <- (s2 (nub d) (nob d) b k (fun e m => i_bb_voov H b m k e) Hb Hk). apply sumn_ext; intros e _. apply sumn_ext; intros m _. rewrite Y; unfold del3, del2; rewrite ?dlt_same, ?Zab, ?Zba, ?Zac, ?Zca, ?Zbc, ?Zcb, ?Zij, ?Zji, ?Zik, ?Zki, ?Zjk, ?Zkj; ring. }
  assert (R18 : sumn (nub d) (fun e => sumn (nob d) (fun m => (i_bb_voov H c m i e) * (x_bbb T a b e m j k))) = i_bb_voov H c i i c). { rewrite <- (s2 (nub d) (nob d) c i (fun e m => i_bb_voov H c m i e) Hc Hi). apply sumn_ext; intros e _. apply sumn_ext; intros m _. rewrite Y; unfold del3, del2; rewrite ?dlt_same, ?Zab, ?Zba, ?Zac, ?Zca, ?Zbc, ?Zcb, ?Zij, ?Zji, ?Zik, ?Zki, ?Zjk, ?Zkj; ring. }
  assert (R19 : sumn (nub d) (fun e => sumn (nob d) (fun m => (i_bb_voov H c m j e) * (x_bbb T a b e i m k))) = i_bb_voov H c j j c). { rewrite <- (s2 (nub d) (nob d) c j (fun e m => i_bb_voov H c m j e) Hc Hj). apply sumn_ext; intros e _. apply sumn_ext; intros m _. rewrite Y; unfold del3, del2; rewrite ?dlt_same, ?Zab, ?Zba, ?Zac, ?Zca, ?Zbc, ?Zcb, ?Zij, ?Zji, ?Zik, ?Zki, ?Zjk, ?Zkj; ring. }
  assert (R20 : sumn (nub d) (fun e => sumn (nob d) (fun m => (i_bb_voov H c m k e) * (x_bbb T a b e i j m))) = i_bb_voov H c k k c). { rewrite <- (s2 (nub d) (nob d) c k (fun e m => i_bb_voov H c m k e) Hc Hk). apply sumn_ext; intros e _. apply sumn_ext; intros m _. rewrite Y; unfold del3, del2; rewrite ?dlt_same, ?Zab, ?Zba, ?Zac, ?Zca, ?Zbc, ?Zcb, ?Zij, ?Zji, ?Zik, ?Zki, ?Zjk, ?Zkj; ring. }
  assert (R21 : sumn (nob d) (fun m => sumn (nob d) (fun n => sumn (nub d) (fun e => sumn (nub d) (fun f => (i_bb_oovv H m n e f) * (x_bb T a b m i) * (x_bbb T e f c n j k))))) = sumn (nob d) (fun m => i_bb_oovv H m i a b * x_bb T a b m i - i_bb_oovv H m i b a * x_bb T a b m i)). { rewrite <- (s4a (nob d) (nob d) (nub d) i a b (fun m n e f => i_bb_oovv H m n e f * x_bb T a b m i) Hi Ha Hb). apply sumn_ext; intros m _. apply sumn_ext; intros n _. apply sumn_ext; intros e _. apply sumn_ext; intros f _. rewrite Y; unfold del3, del2; rewrite ?dlt_same, ?Zab, ?Zba, ?Zac, ?Zca, ?Zbc, ?Zcb, ?Zij, ?Zji, ?Zik, ?Zki, ?Zjk, ?Zkj; ring. }
  assert (Q21 : sumn (nob d) (fun m => i_bb_oovv H m i a b * x_bb T a b m i - i_bb_oovv H m i b a * x_bb T a b m i) = 2 * sumn (nob d) (fun m => i_bb_oovv H i m a b * x_bb T a b i m)).
  { rewrite <- sumn_scal. apply sumn_ext; intros m _. rewrite (pa_bb_oovv_34 H PA m i b a), (pa_bb_oovv_12 H PA m i a b), (T4 a b m i). ring. }
  rewrite Q21 in R21.
  assert (R22 : sumn (nob d) (fun m => sumn (nob d) (fun n => sumn (nub d) (fun e => sumn (nub d) (fun f => (i_bb_oovv H m n e f) * (x_bb T e a i j) * (x_bbb T f b c m n k))))) = sumn (nub d) (fun e => i_bb_oovv H i j e a * x_bb T e a i j - i_bb_oovv H j i e a * x_bb T e a i j)). { rewrite <- (s4ob (nob d) (nub d) (nub d) i j a (fun m n e f => i_bb_oovv H m n e f * x_bb T e a i j) Hi Hj Ha). apply sumn_ext; intros m _. apply sumn_ext; intros n _. apply sumn_ext; intros e _. apply sumn_ext; intros f _. rewrite Y; unfold del3, del2; rewrite ?dlt_same, ?Zab, ?Zba, ?Zac, ?Zca, ?Zbc, ?Zcb, ?Zij, ?Zji, ?Zik, ?Zki, ?Zjk, ?Zkj; ring. }
  assert (Q22 : sumn (nub d) (fun e => i_bb_oovv H i j e a * x_bb T e a i j - i_bb_oovv H j i e a * x_bb T e a i j) = 2 * sumn (nub d) (fun e => i_bb_oovv H i j a e * x_bb T a e i j)).
  { rewrite <- sumn_scal. apply sumn_ext; intros e _. rewrite (pa_bb_oovv_12 H PA j i e a), (pa_bb_oovv_34 H PA i j e a), (T3 e a i j). ring. }
  rewrite Q22 in R22.
  assert (R23 : sumn (nob d) (fun m => sumn (nob d) (fun n => sumn (nub d) (fun e => sumn (nub d) (fun f => (i_bb_oovv H m n e f) * (x_bb T a b m j) * (x_bbb T e f c i n k))))) = sumn (nob d) (fun m => i_bb_oovv H m j a b * x_bb T a b m j - i_bb_oovv H m j b a * x_bb T a b m j)). { rewrite <- (s4a (nob d) (nob d) (nub d) j a b (fun m n e f => i_bb_oovv H m n e f * x_bb T a b m j) Hj Ha Hb). apply sumn_ext; intros m _. apply sumn_ext; intros n _. apply sumn_ext; intros e _. apply sumn_ext; intros f _. rewrite Y; unfold del3, del2; rewrite ?dlt_same, ?Zab, ?Zba, ?Zac, ?Zca, ?Zbc, ?Zcb, ?Zij, ?Zji, ?Zik, ?Zki, ?Zjk, ?Zkj; ring. }
  assert (Q23 : sumn (nob d) (fun m => i_bb_oovv H m j a b * x_bb T a b m j - i_bb_oovv H m j b a * x_bb T a b m j) = 2 * sumn (nob d) (fun m => i_bb_oovv H j m a b * x_bb T a b j m)).
  { rewrite <- sumn_scal. apply sumn_ext; intros m _. rewrite (pa_bb_oovv_34 H PA m j b a), (pa_bb_oovv_12 H PA m j a b), (T4 a b m j). ring. }
  rewrite Q23 in R23.
  assert (R24 : sumn (nob d) (fun m => sumn (nob d) (fun n => sumn (nub d) (fun e => sumn (nub d) (fun f => (i_bb_oovv H m n e f) * (x_bb T e b i j) * (x_bbb T a f c m n k))))) = sumn (nub d) (fun e => i_bb_oovv H i j e b * x_bb T e b i j - i_bb_oovv H j i e b * x_bb T e b i j)). { rewrite <- (s4ob (nob d) (nub d) (nub d) i j b (fun m n e f => i_bb_oovv H m n e f * x_bb T e b i j) Hi Hj Hb). apply sumn_ext; intros m _. apply sumn_ext; intros n _. apply sumn_ext; intros e _. apply sumn_ext; intros f _. rewrite Y; unfold del3, del2; rewrite ?dlt_same, ?Zab, ?Zba, ?Zac, ?Zca, ?Zbc, ?Zcb, ?Zij, ?Zji, ?Zik, ?Zki, ?Zjk, ?Zkj; ring. }
  assert (Q24 : sumn (nub d) (fun e => i_bb_oovv H i j e b * x_bb T e b i j - i_bb_oovv H j i e b * x_bb T e b i j) = 2 * sumn (nub d) (fun e => i_bb_oovv H i j b e * x_bb T b e i j)).
  { rewrite <- sumn_scal. apply sumn_ext; intros e _. rewrite (pa_bb_oovv_12 H PA j i e b), (pa_bb_oovv_34 H PA i j e b), (T3 e b i j). ring. }
  rewrite Q24 in R24.
  assert (R25 : sumn (nob d) (fun m => sumn (nob d) (fun n => sumn (nub d) (fun e => sumn (nub d) (fun f => (i_bb_oovv H m n e f) * (x_bb T a b m k) * (x_bbb T e f c i j n))))) = sumn (nob d) (fun m => i_bb_oovv H m k a b * x_bb T a b m k - i_bb_oovv H m k b a * x_bb T a b m k)). { rewrite <- (s4a (nob d) (nob d) (nub d) k a b (fun m n e f => i_bb_oovv H m n e f * x_bb T a b m k) Hk Ha Hb). apply sumn_ext; intros m _. apply sumn_ext; intros n _. apply sumn_ext; intros e _. apply sumn_ext; intros f _. rewrite Y; unfold del3, del2; rewrite ?dlt_same, ?Zab, ?Zba, ?Zac, ?Zca, ?Zbc, ?Zcb, ?Zij, ?Zji, ?Zik, ?Zki, ?Zjk, ?Zkj; ring. }
  assert (Q25 : sumn (nob d) (fun m => i_bb_oovv H m k a b * x_bb T a b m k - i_bb_oovv H m k b a * x_bb T a b m k) = 2 * sumn (nob d) (fun m => i_bb_oovv H k m a b * x_bb T a b k m)).
  { rewrite <- sumn_scal. apply sumn_ext; intros m _. rewrite (pa_bb_oovv_34 H PA m k b a), (pa_bb_oovv_12 H PA m k a b), (T4 a b m k). ring. }
  rewrite Q25 in R25.
  assert (R26 : sumn (nob d) (fun m => sumn (nob d) (fun n => sumn (nub d) (fun e => sumn (nub d) (fun f => (i_bb_oovv H m n e f) * (x_bb T e c i j) * (x_bbb T a b f m n k))))) = sumn (nub d) (fun e => i_bb_oovv H i j e c * x_bb T e c i j - i_bb_oovv H j i e c * x_bb T e c i j)). { rewrite <- (s4ob (nob d) (nub d) (nub d) i j c (fun m n e f => i_bb_oovv H m n e f * x_bb T e c i j) Hi Hj Hc). apply sumn_ext; intros m _. apply sumn_ext; intros n _. apply sumn_ext; intros e _. apply sumn_ext; intros f _. rewrite Y; unfold del3, del2; rewrite ?dlt_same, ?Zab, ?Zba, ?Zac, ?Zca, ?Zbc, ?Zcb, ?Zij, ?Zji, ?Zik, ?Zki, ?Zjk, ?Zkj; ring. }
  assert (Q26 : sumn (nub d) (fun e => i_bb_oovv H i j e c * x_bb T e c i j - i_bb_oovv H j i e c * x_bb T e c i j) = 2 * sumn (nub d) (fun e => i_bb_oovv H i j c e * x_bb T c e i j)).
  { rewrite <- sumn_scal. apply sumn_ext; intros e _. rewrite (pa_bb_oovv_12 H PA j i e c), (pa_bb_oovv_34 H PA i j e c), (T3 e c i j). ring. }
  rewrite Q26 in R26.
  assert (R27 : sumn (nob d) (fun m => sumn (nob d) (fun n => sumn (nub d) (fun e => sumn (nub d) (fun f => (i_bb_oovv H m n e f) * (x_bb T a c m i) * (x_bbb T e b f n j k))))) = sumn (nob d) (fun m => i_bb_oovv H m i a c * x_bb T a c m i - i_bb_oovv H m i c a * x_bb T a c m i)). { rewrite <- (s4a (nob d) (nob d) (nub d) i a c (fun m n e f => i_bb_oovv H m n e f * x_bb T a c m i) Hi Ha Hc). apply sumn_ext; intros m _. apply sumn_ext; intros n _. apply sumn_ext; intros e _. apply sumn_ext; intros f _. rewrite Y; unfold del3, del2; rewrite ?dlt_same, ?Zab, ?Zba, ?Zac, ?Zca, ?Zbc, ?Zcb, ?Zij, ?Zji, ?Zik, ?Zki, ?Zjk, ?Zkj; ring. }
  assert (Q27 : sumn (nob d) (fun m => i_bb_oovv H m i a c * x_bb T a c m i - i_bb_oovv H m i c a * x_bb T a c m i) = 2 * sumn (nob d) (fun m => i_bb_oovv H i m a c * x_bb T a c i m)).
  { rewrite <- sumn_scal. apply sumn_ext; intros m _. rewrite (pa_bb_oovv_34 H PA m i c a), (pa_bb_oovv_12 H PA m i a c), (T4 a c m i). ring. }
  rewrite Q27 in R27.
  assert (R28 : sumn (nob d) (fun m => sumn (nob d) (fun n => sumn (nub d) (fun e => sumn (nub d) (fun f => (i_bb_oovv H m n e f) * (x_bb T e a i k) * (x_bbb T f b c m j n))))) = sumn (nub d) (fun e => i_bb_oovv H i k e a * x_bb T e a i k - i_bb_oovv H k i e a * x_bb T e a i k)). { rewrite <- (s4ob (nob d) (nub d) (nub d) i k a (fun m n e f => i_bb_oovv H m n e f * x_bb T e a i k) Hi Hk Ha). apply sumn_ext; intros m _. apply sumn_ext; intros n _. apply sumn_ext; intros e _. apply sumn_ext; intros f _. rewrite Y; unfold del3, del2; rewrite ?dlt_same, ?Zab, ?Zba, ?Zac, ?Zca, ?Zbc, ?Zcb, ?Zij, ?Zji, ?Zik, ?Zki, ?Zjk, ?Zkj; ring. }
  assert (Q28 : sumn (nub d) (fun e => i_bb_oovv H i k e a * x_bb T e a i k - i_bb_oovv H k i e a * x_bb T e a i k) = 2 * sumn (nub d) (fun e => i_bb_oovv H i k a e * x_bb T a e i k)).
  { rewrite <- sumn_scal. apply sumn_ext; intros e _. rewrite (pa_bb_oovv_12 H PA k i e a), (pa_bb_oovv_34 H PA i k e a), (T3 e a i k). ring. }
  rewrite Q28 in R28.
  assert (R29 : sumn (nob d) (fun m => sumn (nob d) (fun n => sumn (nub d) (fun e => sumn (nub d) (fun f => (i_bb_oovv H m n e f) * (x_bb T a c m j) * (x_bbb T e b f i n k))))) = sumn (nob d) (fun m => i_bb_oovv H m j a c * x_bb T a c m j - i_bb_oovv H m j c a * x_bb T a c m j)). { rewrite <- (s4a (nob d) (nob d) (nub d) j a c (fun m n e f => i_bb_oovv H m n e f * x_bb T a c m j) Hj Ha Hc). apply sumn_ext; intros m _. apply sumn_ext; intros n _. apply sumn_ext; intros e _. apply sumn_ext; intros f _. rewrite Y; unfold del3, del2; rewrite ?dlt_same, ?Zab, ?Zba, ?Zac, ?Zca, ?Zbc, ?Zcb, ?Zij, ?Zji, ?Zik, ?Zki, ?Zjk, ?Zkj; ring. }
  assert (Q29 : sumn (nob d) (fun m => i_bb_oovv H m j a c * x_bb T a c m j - i_bb_oovv H m j c a * x_bb T a c m j) = 2 * sumn (nob d) (fun m => i_bb_oovv H j m a c * x_bb T a c j m)).
  { rewrite <- sumn_scal. apply sumn_ext; intros m _. rewrite (pa_bb_oovv_34 H PA m j c a), (pa_bb_oovv_12 H PA m j a c), (T4 a c m j). ring. }
  rewrite Q29 in R29.
  assert (R30 : sumn (nob d) (fun m => sumn (nob d) (fun n => sumn (nub d) (fun e => sumn (nub d) (fun f => (i_bb_oovv H m n e f) * (x_bb T e b i k) * (x_bbb T a f c m j n))))) = sumn (nub d) (fun e => i_bb_oovv H i k e b * x_bb T e b i k - i_bb_oovv H k i e b * x_bb T e b i k)). { rewrite <- (s4ob (nob d) (nub d) (nub d) i k b (fun m n e f => i_bb_oovv H m n e f * x_bb T e b i k) Hi Hk Hb). apply sumn_ext; intros m _. apply sumn_ext; intros n _. apply sumn_ext; intros e _. apply sumn_ext; intros f _. rewrite Y; unfold del3, del2; rewrite ?dlt_same, ?Zab, ?Zba, ?Zac, ?Zca, ?Zbc, ?Zcb, ?Zij, ?Zji, ?Zik, ?Zki, ?Zjk, ?Zkj; ring. }
  assert (Q30 : sumn (nub d) (fun e => i_bb_oovv H i k e b * x_bb T e b i k - i_bb_oovv H k i e b * x_bb T e b i k) = 2 * sumn (nub d) (fun e => i_bb_oovv H i k b e * x_bb T b e i k)).
  { rewrite <- sumn_scal. apply sumn_ext; intros e _. rewrite (pa_bb_oovv_12 H PA k i e b), (pa_bb_oovv_34 H PA i k e b), (T3 e b i k). ring. }
  rewrite Q30 in R30.
  assert (R31 : sumn (nob d) (fun m => sumn (nob d) (fun n => sumn (nub d) (fun e => sumn (nub d) (fun f => (i_bb_oovv H m n e f) * (x_bb T a c m k) * (x_bbb T e b f i j n))))) = sumn (nob d) (fun m => i_bb_oovv H m k a c * x_bb T a c m k - i_bb_oovv H m k c a * x_bb T a c m k)). { rewrite <- (s4a (nob d) (nob d) (nub d) k a c (fun m n e f => i_bb_oovv H m n e f * x_bb T a c m k) Hk Ha Hc). apply sumn_ext; intros m _. apply sumn_ext; intros n _. apply sumn_ext; intros e _. apply sumn_ext; intros f _. rewrite Y; unfold del3, del2; rewrite ?dlt_same, ?Zab, ?Zba, ?Zac, ?Zca, ?Zbc, ?Zcb, ?Zij, ?Zji, ?Zik, ?Zki, ?Zjk, ?Zkj; ring. }
  assert (Q31 : sumn (nob d) (fun m => i_bb_oovv H m k a c * x_bb T a c m k - i_bb_oovv H m k c a * x_bb T a c m k) = 2 * sumn (nob d) (fun m => i_bb_oovv H k m a c * x_bb T a c k m)).
  { rewrite <- sumn_scal. apply sumn_ext; intros m _. rewrite (pa_bb_oovv_34 H PA m k c a), (pa_bb_oovv_12 H PA m k a c), (T4 a c m k). ring. }
  rewrite Q31 in R31.
  assert (R32 : sumn (nob d) (fun m => sumn (nob d) (fun n => sumn (nub d) (fun e => sumn (nub d) (fun f => (i_bb_oovv H m n e f) * (x_bb T e c i k) * (x_bbb T a b f m j n))))) = sumn (nub d) (fun e => i_bb_oovv H i k e c * x_bb T e c i k - i_bb_oovv H k i e c * x_bb T e c i k)). { rewrite <- (s4ob (nob d) (nub d) (nub d) i k c (fun m n e f => i_bb_oovv H m n e f * x_bb T e c i k) Hi Hk Hc). apply sumn_ext; intros m _. apply sumn_ext; intros n _. apply sumn_ext; intros e _. apply sumn_ext; intros f _. rewrite Y; unfold del3, del2; rewrite ?dlt_same, ?Zab, ?Zba, ?Zac, ?Zca, ?Zbc, ?Zcb, ?Zij, ?Zji, ?Zik, ?Zki, ?Zjk, ?Zkj; ring. }
  assert (Q32 : sumn (nub d) (fun e => i_bb_oovv H i k e c * x_bb T e c i k - i_bb_oovv H k i e c * x_bb T e c i k) = 2 * sumn (nub d) (fun e => i_bb_oovv H i k c e * x_bb T c e i k)).
  { rewrite <- sumn_scal. apply sumn_ext; intros e _. rewrite (pa_bb_oovv_12 H PA k i e c), (pa_bb_oovv_34 H PA i k e c), (T3 e c i k). ring. }
  rewrite Q32 in R32.
  assert (R33 : sumn (nob d) (fun m => sumn (nob d) (fun n => sumn (nub d) (fun e => sumn (nub d) (fun f => (i_bb_oovv H m n e f) * (x_bb T b c m i) * (x_bbb T a e f n j k))))) = sumn (nob d) (fun m => i_bb_oovv H m i b c * x_bb T b c m i - i_bb_oovv H m i c b * x_bb T b c m i)). { rewrite <- (s4a (nob d) (nob d) (nub d) i b c (fun m n e f => i_bb_oovv H m n e f * x_bb T b c m i) Hi Hb Hc). apply sumn_ext; intros m _. apply sumn_ext; intros n _. apply sumn_ext; intros e _. apply sumn_ext; intros f _. rewrite Y; unfold del3, del2; rewrite ?dlt_same, ?Zab, ?Zba, ?Zac, ?Zca, ?Zbc, ?Zcb, ?Zij, ?Zji, ?Zik, ?Zki, ?Zjk, ?Zkj; ring. }
  assert (Q33 : sumn (nob d) (fun m => i_bb_oovv H m i b c * x_bb T b c m i - i_bb_oovv H m i c b * x_bb T b c m i) = 2 * sumn (nob d) (fun m => i_bb_oovv H i m b c * x_bb T b c i m)).
  { rewrite <- sumn_scal. apply sumn_ext; intros m _. rewrite (pa_bb_oovv_34 H PA m i c b), (pa_bb_oovv_12 H PA m i b c), (T4 b c m i). ring. }
  rewrite Q33 in R33.
  assert (R34 : sumn (nob d) (fun m => sumn (nob d) (fun n => sumn (nub d) (fun e => sumn (nub d) (fun f => (i_bb_oovv H m n e f) * (x_bb T e a j k) * (x_bbb T f b c i m n))))) = sumn (nub d) (fun e => i_bb_oovv H j k e a * x_bb T e a j k - i_bb_oovv H k j e a * x_bb T e a j k)). { rewrite <- (s4ob (nob d) (nub d) (nub d) j k a (fun m n e f => i_bb_oovv H m n e f * x_bb T e a j k) Hj Hk Ha). apply sumn_ext; intros m _. apply sumn_ext; intros n _. apply sumn_ext; intros e _. apply sumn_ext; intros f _. rewrite Y; unfold del3, del2; rewrite ?dlt_same, ?Zab, ?Zba, ?Zac, ?Zca, ?Zbc, ?Zcb, ?Zij, ?Zji, ?Zik, ?Zki, ?Zjk, ?Zkj; ring. }
  assert (Q34 : sumn (nub d) (fun e => i_bb_oovv H j k e a * x_bb T e a j k - i_bb_oovv H k j e a * x_bb T e a j k) = 2 * sumn (nub d) (fun e => i_bb_oovv H j k a e * x_bb T a e j k)).
  { rewrite <- sumn_scal. apply sumn_ext; intros e _. rewrite (pa_bb_oovv_12 H PA k j e a), (pa_bb_oovv_34 H PA j k e a), (T3 e a j k). ring. }
  rewrite Q34 in R34.
  assert (R35 : sumn (nob d) (fun m => sumn (nob d) (fun n => sumn (nub d) (fun e => sumn (nub d) (fun f => (i_bb_oovv H m n e f) * (x_bb T b c m j) * (x_bbb T a e f i n k))))) = sumn (nob d) (fun m => i_bb_oovv H m j b c * x_bb T b c m j - i_bb_oovv H m j c b * x_bb T b c m j)). { rewrite <- (s4a (nob d) (nob d) (nub d) j b c (fun m n e f => i_bb_oovv H m n e f * x_bb T b c m j) Hj Hb Hc). apply sumn_ext; intros m _. apply sumn_ext; intros n _. apply sumn_ext; intros e _. apply sumn_ext; intros f _. rewrite Y; unfold del3, del2; rewrite ?dlt_same, ?Zab, ?Zba, ?Zac, ?Zca, ?Zbc, ?Zcb, ?Zij, ?Zji, ?Zik, ?Zki, ?Zjk, ?Zkj; ring. }
  assert (Q35 : sumn (nob d) (fun m => i_bb_oovv H m j b c * x_bb T b c m j - i_bb_oovv H m j c b * x_bb T b c m j) = 2 * sumn (nob d) (fun m => i_bb_oovv H j m b c * x_bb T b c j m)).
  { rewrite <- sumn_scal. apply sumn_ext; intros m _. rewrite (pa_bb_oovv_34 H PA m j c b), (pa_bb_oovv_12 H PA m j b c), (T4 b c m j). ring. }
  rewrite Q35 in R35.
  assert (R36 : sumn (nob d) (fun m => sumn (nob d) (fun n => sumn (nub d) (fun e => sumn (nub d) (fun f => (i_bb_oovv H m n e f) * (x_bb T e b j k) * (x_bbb T a f c i m n))))) = sumn (nub d) (fun e => i_bb_oovv H j k e b * x_bb T e b j k - i_bb_oovv H k j e b * x_bb T e b j k)). { rewrite <- (s4ob (nob d) (nub d) (nub d) j k b (fun m n e f => i_bb_oovv H m n e f * x_bb T e b j k) Hj Hk Hb). apply sumn_ext; intros m _. apply sumn_ext; intros n _. apply sumn_ext; intros e _. apply sumn_ext; intros f _. rewrite Y; unfold del3, del2; rewrite ?dlt_same, ?Zab, ?Zba, ?Zac, ?Zca, ?Zbc, ?Zcb, ?Zij, ?Zji, ?Zik, ?Zki, ?Zjk, ?Zkj; ring. }
  assert (Q36 : sumn (nub d) (fun e => i_bb_oovv H j k e b * x_bb T e b j k - i_bb_oovv H k j e b * x_bb T e b j k) = 2 * sumn (nub d) (fun e => i_bb_oovv H j k b e * x_bb T b e j k)).
  { rewrite <- sumn_scal. apply sumn_ext; intros e _. rewrite (pa_bb_oovv_12 H PA k j e b), (pa_bb_oovv_34 H PA j k e b), (T3 e b j k). ring. }
  rewrite Q36 in R36.
  assert (R37 : sumn (nob d) (fun m => sumn (nob d) (fun n => sumn (nub d) (fun e => sumn (nub d) (fun f => (i_bb_oovv H m n e f) * (x_bb T b c m k) * (x_bbb T a e f i j n))))) = sumn (nob d) (fun m => i_bb_oovv H m k b c * x_bb T b c m k - i_bb_oovv H m k c b * x_bb T b c m k)). { rewrite <- (s4a (nob d) (nob d) (nub d) k b c (fun m n e f => i_bb_oovv H m n e f * x_bb T b c m k) Hk Hb Hc). apply sumn_ext; intros m _. apply sumn_ext; intros n _. apply sumn_ext; intros e _. apply sumn_ext; intros f _. rewrite Y; unfold del3, del2; rewrite ?dlt_same, ?Zab, ?Zba, ?Zac, ?Zca, ?Zbc, ?Zcb, ?Zij, ?Zji, ?Zik, ?Zki, ?Zjk, ?Zkj; ring. }
  assert (Q37 : sumn (nob d) (fun m => i_bb_oovv H m k b c * x_bb T b c m k - i_bb_oovv H m k c b * x_bb T b c m k) = 2 * sumn (nob d) (fun m => i_bb_oovv H k m b c * x_bb T b c k m)).
  { rewrite <- sumn_scal. apply sumn_ext; intros m _. rewrite (pa_bb_oovv_34 H PA m k c b), (pa_bb_oovv_12 H PA m k b c), (T4 b c m k). ring. }
  rewrite Q37 in R37.
  assert (R38 : sumn (nob d) (fun m => sumn (nob d) (fun n => sumn (nub d) (fun e => sumn (nub d) (fun f => (i_bb_oovv H m n e f) * (x_bb T e c j k) * (x_bbb T a b f i m n))))) = sumn (nub d) (fun e => i_bb_oovv H j k e c * x_bb T e c j k - i_bb_oovv H k j e c * x_bb T e c j k)). { rewrite <- (s4ob (nob d) (nub d) (nub d) j k c (fun m n e f => i_bb_oovv H m n e f * x_bb T e c j k) Hj Hk Hc). apply sumn_ext; intros m _. apply sumn_ext; intros n _. apply sumn_ext; intros e _. apply sumn_ext; intros f _. rewrite Y; unfold del3, del2; rewrite ?dlt_same, ?Zab, ?Zba, ?Zac, ?Zca, ?Zbc, ?Zcb, ?Zij, ?Zji, ?Zik, ?Zki, ?Zjk, ?Zkj; ring. }
  assert (Q38 : sumn (nub d) (fun e => i_bb_oovv H j k e c * x_bb T e c j k - i_bb_oovv H k j e c * x_bb T e c j k) = 2 * sumn (nub d) (fun e => i_bb_oovv H j k c e * x_bb T c e j k)).
  { rewrite <- sumn_scal. apply sumn_ext; intros e _. rewrite (pa_bb_oovv_12 H PA k j e c), (pa_bb_oovv_34 H PA j k e c), (T3 e c j k). ring. }
  rewrite Q38 in R38.
  unfold crdia_bbb. rewrite R0, R1, R2, R3, R4, R5, R6, R7, R8, R9, R10, R11, R12, R13, R14, R15, R16, R17, R18, R19, R20, R21, R22, R23, R24, R25, R26, R27, R28, R29, R30, R31, R32, R33, R34, R35, R36, R37, R38. unfold crcc_DD_bbb, crcc_DC_bbb, crcc_DB_bbb, crcc_h_aa_vvvv, crcc_h_ab_vvvv, crcc_h_bb_vvvv, crcc_d3aaa_v, crcc_d3aaa_o, crcc_d3aab_v, crcc_d3aab_o, crcc_d3abb_v, crcc_d3abb_o, crcc_d3bbb_v, crcc_d3bbb_o.
  rewrite ?(proj2 (Nat.leb_gt b a) Lab). rewrite ?(proj2 (Nat.leb_gt c a) Lac). rewrite ?(proj2 (Nat.leb_gt c b) Lbc). field.
Qed.
