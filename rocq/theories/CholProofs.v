(** The Fortran contraction over ordered pairs against unrestricted sums; equality of the residuals (proof support). *)
From Coq Require Import Reals Arith List Bool Lra Lia.
From Verif Require Import RSum IntegralsModel IntegralsSpec TensorObjs TensorAlg TensorSpec TensorClosed LoopModel CcsdModel CcsdUpdate CcsdProps RhfProps FockSpec FockCcSpec FockProps CholLoops CholModel CholReify CholUpdate CholCheck.
Import ListNotations.
Open Scope R_scope.

(** sums over e < f *)
Lemma sumn_above n f e : (e < n)%nat -> sumn (n - S e) (fun g => f (S e + g)%nat) = sumn n f - sumn (S e) f.
Proof. intros He. replace n with (S e + (n - S e))%nat at 2 by lia. rewrite sumn_split. lra. Qed.
Lemma sumn_tri n (f : nat -> nat -> R) : sumn n (fun e => sumn (n - S e) (fun g => f (S e + g)%nat e)) = sumn n (fun k => sumn k (fun e => f k e)).
Proof.
  transitivity (sumn n (fun e => sumn n (fun k => if (e <? k)%nat then f k e else 0))).
  - apply sumn_ext. intros e He. rewrite (sumn_above n (fun k => f k e)) by assumption.
    replace n with (S e + (n - S e))%nat at 1 2 by lia. rewrite !sumn_split.
    rewrite (sumn_0 (S e) (fun k => if (e <? k)%nat then _ else _)).
    2:{ intros k Hk. destruct (Nat.ltb_spec e k); [lia|reflexivity]. }
    rewrite (sumn_ext (n - S e) (fun i => if (e <? S e + i)%nat then f (S e + i)%nat e else 0) (fun i => f (S e + i)%nat e)).
    2:{ intros k Hk. destruct (Nat.ltb_spec e (S e + k)); [reflexivity|lia]. }
    lra.
  - rewrite sumn_swap. apply sumn_ext. intros k Hk. replace n with (k + (n - k))%nat by lia. rewrite sumn_split.
    rewrite (sumn_0 (n - k)). 2:{ intros i _. destruct (Nat.ltb_spec (k + i) k); [lia|reflexivity]. }
    rewrite Rplus_0_r. apply sumn_ext. intros e He. destruct (Nat.ltb_spec e k); [reflexivity|lia].
Qed.
Lemma tri_half n (f : nat -> nat -> R) : (forall p q, f p q = f q p) -> (forall p, f p p = 0) ->
  sumn n (fun k => sumn k (fun e => f k e)) = 1 / 2 * sumn n (fun e => sumn n (fun k => f k e)).
Proof.
  intros S Z. induction n; cbn [sumn]; [lra|].
  rewrite IHn. rewrite sumn_plus. rewrite Z.
  assert (E : sumn n (fun k => f k n) = sumn n (fun e => f n e)) by (apply sumn_ext; intros; apply S). change (sumn n (f n)) with (sumn n (fun e => f n e)). lra.
Qed.

Lemma fold_pairs (g : nat -> nat -> nat -> nat -> R) l : forall acc j i b a,
  fold_left (fun (r : mat4) ab => fun j i b' a' => if ((a' =? fst ab) && (b' =? snd ab))%nat then r j i b' a' + g (fst ab) (snd ab) j i else r j i b' a') l acc j i b a =
  acc j i b a + fold_right (fun ab r => (if ((a =? fst ab) && (b =? snd ab))%nat then g a b j i else 0) + r) 0 l.
Proof.
  induction l as [|p l IH]; intros; cbn [fold_left fold_right]; [lra|]. rewrite IH. cbn beta. destruct (Nat.eqb_spec a (fst p)) as [->|]; cbn [andb]; [|lra].
  destruct (Nat.eqb_spec b (snd p)) as [->|]; lra.
Qed.
Lemma fr_app (h : nat * nat -> R) l m : fold_right (fun ab r => h ab + r) 0 (l ++ m) = fold_right (fun ab r => h ab + r) 0 l + fold_right (fun ab r => h ab + r) 0 m.
Proof. induction l; cbn [app fold_right]; [lra|]. rewrite IHl. lra. Qed.
Lemma fr_row (h : R) a b a' m : forall k, fold_right (fun ab r => (if ((a =? fst ab) && (b =? snd ab))%nat then h else 0) + r) 0 (map (fun b' => (a', b')) (seq k m)) =
  if ((a =? a') && ((k <=? b) && (b <? k + m)))%nat then h else 0.
Proof.
  induction m; intros k; cbn [seq map fold_right fst snd].
  - destruct (Nat.leb_spec k b), (Nat.ltb_spec b (k + 0)); rewrite ?andb_false_r; cbn [andb]; try lia; rewrite ?andb_false_r; reflexivity.
  - rewrite IHm. destruct (Nat.eqb_spec a a') as [->|]; cbn [andb]; [|lra].
    destruct (Nat.eqb_spec b k), (Nat.leb_spec (S k) b), (Nat.ltb_spec b (S k + m)), (Nat.leb_spec k b), (Nat.ltb_spec b (k + S m)); cbn [andb]; try lia; lra.
Qed.
Lemma fr_table (h : R) nu a b : fold_right (fun ab r => (if ((a =? fst ab) && (b =? snd ab))%nat then h else 0) + r) 0 (ab_table nu) =
  if ((a <? b) && (b <? nu))%nat then h else 0.
Proof.
  unfold ab_table.
  assert (G : forall m k, fold_right (fun ab r => (if ((a =? fst ab) && (b =? snd ab))%nat then h else 0) + r) 0
     (flat_map (fun a' => map (fun b' => (a', b')) (seq (S a') (nu - S a'))) (seq k m)) = if ((k <=? a) && (a <? k + m) && ((a <? b) && (b <? nu)))%nat then h else 0).
  { induction m; intros k; cbn [seq flat_map fold_right].
    - destruct (Nat.leb_spec k a), (Nat.ltb_spec a (k + 0)); cbn [andb]; try lia; reflexivity.
    - rewrite fr_app, IHm, fr_row.
      destruct (Nat.eqb_spec a k), (Nat.leb_spec (S k) b), (Nat.ltb_spec b (S k + (nu - S k))), (Nat.leb_spec (S k) a), (Nat.ltb_spec a (S k + m)), (Nat.leb_spec k a), (Nat.ltb_spec a (k + S m)),
        (Nat.ltb_spec a b), (Nat.ltb_spec b nu); cbn [andb]; try lia; lra. }
  rewrite G. destruct (Nat.leb_spec 0 a), (Nat.ltb_spec a (0 + nu)), (Nat.ltb_spec a b), (Nat.ltb_spec b nu); cbn [andb]; try lia; reflexivity.
Qed.
Lemma sym_entry no nu nx (v : mat3) (t2 : mat4) j i b a :
  vvvv_t2_sym no nu nx v t2 j i b a = if ((a <? b) && (b <? nu))%nat then pair_sum nu nx v t2 a b j i else 0.
Proof. unfold vvvv_t2_sym. rewrite (fold_pairs (fun a b j i => pair_sum nu nx v t2 a b j i)), fr_table. lra. Qed.
(** the pair sum in unrestricted form *)
Definition full_sum (nu nx : nat) (v : mat3) (t2 : mat4) (a b j i : nat) : R :=
  sumn nu (fun e => sumn nu (fun f => sumn nx (fun x => v x f b * v x e a - v x e b * v x f a) * t2 j i f e)).
Lemma pair_full nu nx v t2 a b j i : (forall f e, t2 j i f e = - t2 j i e f) -> pair_sum nu nx v t2 a b j i = 1 / 2 * full_sum nu nx v t2 a b j i.
Proof.
  intros A. unfold pair_sum. rewrite (sumn_tri nu (fun f e => batch_ints nx v a b f e * t2 j i f e)).
  rewrite (tri_half nu (fun f e => batch_ints nx v a b f e * t2 j i f e)).
  - unfold full_sum. f_equal. apply sumn_ext. intros e _. apply sumn_ext. intros f _. f_equal. unfold batch_ints. rewrite <- sumn_minus. reflexivity.
  - intros p q. rewrite (A p q). unfold batch_ints. ring.
  - intros p. unfold batch_ints. ring.
Qed.
Lemma full_anti nu nx v t2 a b j i : full_sum nu nx v t2 b a j i = - full_sum nu nx v t2 a b j i.
Proof.
  unfold full_sum. rewrite <- sumn_opp. apply sumn_ext. intros e _. rewrite <- sumn_opp. apply sumn_ext. intros f _.
  rewrite (sumn_ext nx (fun x => v x f a * v x e b - v x e a * v x f b) (fun x => - (v x f b * v x e a - v x e b * v x f a))) by (intros; ring). rewrite sumn_opp. ring.
Qed.
Lemma full_t2 nu nx v t2 a b j i : (forall f e, t2 j i f e = - t2 i j f e) -> full_sum nu nx v t2 a b j i = - full_sum nu nx v t2 a b i j.
Proof.
  intros A. unfold full_sum. rewrite <- sumn_opp. apply sumn_ext. intros e _. rewrite <- sumn_opp. apply sumn_ext. intros f _. rewrite A. ring.
Qed.
(** after the four-term combination the restricted sums give the unrestricted ones *)
Lemma four_full no nu nx v t2 a b i j : (forall j i f e, t2 j i f e = - t2 j i e f) -> (forall j i f e, t2 j i f e = - t2 i j f e) -> (a < nu)%nat -> (b < nu)%nat ->
  let s := vvvv_t2_sym no nu nx v t2 in
  s j i b a - s j i a b - s i j b a + s i j a b = full_sum nu nx v t2 a b j i.
Proof.
  intros A1 A2 Ha Hb s. unfold s. rewrite !sym_entry, !pair_full by (intros; apply A1).
  rewrite (full_t2 nu nx v t2 a b i j), (full_t2 nu nx v t2 b a i j) by (intros; apply A2).
  rewrite (full_anti nu nx v t2 a b j i).
  destruct (Nat.ltb_spec a b), (Nat.ltb_spec b nu), (Nat.ltb_spec b a), (Nat.ltb_spec a nu); cbn [andb]; try lia; try lra.
  assert (a = b) by lia. subst b. assert (Q := full_anti nu nx v t2 a a j i). lra.
Qed.
Lemma vvvv_t2_entry nua nub nx Ra Rb t2 j i b a : (a < nua)%nat -> (b < nub)%nat ->
  vvvv_t2 nua nub nx Ra Rb t2 j i b a = sumn nua (fun e => sumn nub (fun f => sumn nx (fun x => Rb x f b * Ra x e a) * t2 j i f e)).
Proof. intros Ha Hb. unfold vvvv_t2. rewrite (proj2 (Nat.ltb_lt _ _) Ha), (proj2 (Nat.ltb_lt _ _) Hb). reflexivity. Qed.

Section Residuals.
Variables (nx : nat) (e1 : mat2) (L : mat3) (s : sysd) (T : amps).
Hypothesis HT : antisym_amps T.
Let d := sys_dims s.
Let C := chol_of s L.
Let H := fock_ints (s_noa s) (s_nob s) (valence e1 (dense_of nx L) (s_nf s)).
Notation cden := (den (denv [noa d; nua d; nob d; nub d; nx]) (tenv (chl_arrays d nx C H T))).
Lemma chl_syms : Forall (fun g => okalt (tenv (chl_arrays d nx C H T)) (fst g) (snd g)) chl_gens.
Proof. sym_all. Qed.
Lemma cs e e' v : same_tab chl_tab (fun x => x) [0; 1; 2; 3; 4]%nat e e' = true -> cden e v = cden e' v.
Proof.
  intros E. apply (same_tab_sound _ _ chl_gens (length (chl_arrays d nx C H T)) chl_tab (fun x => x) [0; 1; 2; 3; 4]%nat);
    [vm_compute; reflexivity|reflexivity|exact chl_syms|exact E].
Qed.
Lemma full_a a i : cf_res_a d nx C H T T a i = ccsd_res_a d H T T a i.
Proof. exact (cs e_cf_a e_ccsd_a (venv [a; i]) chk_a). Qed.
Lemma full_b a i : cf_res_b d nx C H T T a i = ccsd_res_b d H T T a i.
Proof. exact (cs e_cf_b e_ccsd_b (venv [a; i]) chk_b). Qed.
Lemma full_ab a b i j : cf_res_ab d nx C H T T a b i j = ccsd_res_ab d H T T a b i j.
Proof. exact (cs e_cf_ab e_ccsd_ab (venv [a; b; i; j]) chk_ab). Qed.
Lemma full_aa a b i j : four_term (cf_res_aa d nx C H T T) a b i j = four_term (ccsd_res_aa d H T T) a b i j.
Proof. exact (cs e_cf_aa e_ccsd_aa (venv [a; b; i; j]) chk_aa). Qed.
Lemma full_bb a b i j : four_term (cf_res_bb d nx C H T T) a b i j = four_term (ccsd_res_bb d H T T) a b i j.
Proof. exact (cs e_cf_bb e_ccsd_bb (venv [a; b; i; j]) chk_bb). Qed.
End Residuals.

(** flag_RHF = True *)
Lemma ok3_id (fs : list (list nat -> R)) k k' f g : nth k fs (fun _ => 0) = ap3 f -> nth k' fs (fun _ => 0) = ap3 g -> (forall a b c, f a b c = g a b c) -> okalt (tenv fs) k (k', [0; 1; 2]%nat, true).
Proof.
  intros E1 E2 H. split.
  - intros [|a [|b [|c [|]]]] Hl; try discriminate. unfold tenv, pick. rewrite E1, E2. simpl. rewrite H. ring.
  - simpl. intros j Hj. intuition (subst; repeat constructor).
Qed.
Section Closed.
Variables (nx : nat) (e1 : mat2) (L : mat3) (s : sysd) (T : amps).
Hypothesis Hn : s_noa s = s_nob s.
Hypothesis HT : singlet T.
Let d := sys_dims s.
Let C := chol_of s L.
Let H := fock_ints (s_noa s) (s_nob s) (valence e1 (dense_of nx L) (s_nf s)).
Lemma fock_same p q : fock_b (s_noa s) (s_nob s) (valence e1 (dense_of nx L) (s_nf s)) p q = fock_a (s_noa s) (s_nob s) (valence e1 (dense_of nx L) (s_nf s)) p q.
Proof.
  unfold fock_a, fock_b, valence. cbn [h_a h_b w_aa w_ab w_bb]. rewrite Hn.
  assert (E : forall n, sumn n (fun i => dense_of nx L (s_nf s + i)%nat (s_nf s + p)%nat (s_nf s + i)%nat (s_nf s + q)%nat) =
    sumn n (fun i => dense_of nx L (s_nf s + p)%nat (s_nf s + i)%nat (s_nf s + q)%nat (s_nf s + i)%nat)).
  { intros n. apply sumn_ext. intros i _. unfold dense_of. apply sumn_ext. intros. ring. }
  rewrite E. lra.
Qed.
Lemma chc_syms : Forall (fun g => okalt (tenv (chc_arrays d nx C H T)) (fst g) (snd g)) chc_gens.
Proof.
  destruct HT as [HA [Ca Caa Cab]].
  assert (Fo : forall p q, i_b_oo H p q = i_a_oo H p q) by (intros; unfold H; cbn [fock_ints i_a_oo i_b_oo]; apply fock_same).
  assert (Fv : forall p q, i_b_ov H p q = i_a_ov H p q) by (intros; unfold H; cbn [fock_ints i_a_ov i_b_ov]; rewrite fock_same, Hn; reflexivity).
  assert (Gv : forall p q, i_b_vo H p q = i_a_vo H p q) by (intros; unfold H; cbn [fock_ints i_a_vo i_b_vo]; rewrite fock_same, Hn; reflexivity).
  assert (Gg : forall p q, i_b_vv H p q = i_a_vv H p q) by (intros; unfold H; cbn [fock_ints i_a_vv i_b_vv]; rewrite fock_same, Hn; reflexivity).
  assert (K1 : forall x p q, c_b_oo C x p q = c_a_oo C x p q) by (intros; unfold C, chol_of, chol_blk; cbn; rewrite ?Hn; reflexivity).
  assert (K2 : forall x p q, c_b_ov C x p q = c_a_ov C x p q) by (intros; unfold C, chol_of, chol_blk; cbn; rewrite ?Hn; reflexivity).
  assert (K3 : forall x p q, c_b_vo C x p q = c_a_vo C x p q) by (intros; unfold C, chol_of, chol_blk; cbn; rewrite ?Hn; reflexivity).
  assert (K4 : forall x p q, c_b_vv C x p q = c_a_vv C x p q) by (intros; unfold C, chol_of, chol_blk; cbn; rewrite ?Hn; reflexivity).
  clearbody C H. do 4 (apply Forall_cons; [eapply ok3_id; [reflexivity|reflexivity|assumption]|]).
  repeat (apply Forall_cons; [first [sym1 | eapply ok2_id; [reflexivity|reflexivity|assumption] | eapply ok4_id; [reflexivity|reflexivity|assumption] | eapply ok4_sw; [reflexivity|reflexivity|assumption]]|]). apply Forall_nil.
Qed.
Lemma dfold5 : forall x, denv [noa d; nua d; nob d; nub d; nx] (dfold x) = denv [noa d; nua d; nob d; nub d; nx] x.
Proof. intros [|[|[|[|x]]]]; cbn; congruence. Qed.
Lemma crs e e' v : same_tab chc_tab dfold [0; 1; 4]%nat e e' = true ->
  den (denv [noa d; nua d; nob d; nub d; nx]) (tenv (chc_arrays d nx C H T)) e v = den (denv [noa d; nua d; nob d; nub d; nx]) (tenv (chc_arrays d nx C H T)) e' v.
Proof.
  intros E. apply (same_tab_sound _ _ chc_gens (length (chc_arrays d nx C H T)) chc_tab dfold [0; 1; 4]%nat);
    [vm_compute; reflexivity|exact dfold5|exact chc_syms|exact E].
Qed.
Lemma rfull_a a i : cg_res_a d nx C H T T a i = ccsd_res_a d H T T a i.
Proof. exact (crs e_cg_a e_ccsd_a (venv [a; i]) chr_a). Qed.
Lemma rfull_b a i : cg_res_a d nx C H T T a i = ccsd_res_b d H T T a i.
Proof. exact (crs e_cg_a e_ccsd_b (venv [a; i]) chr_b). Qed.
Lemma rfull_ab a b i j : cg_res_ab d nx C H T T a b i j = ccsd_res_ab d H T T a b i j.
Proof. exact (crs e_cg_ab e_ccsd_ab (venv [a; b; i; j]) chr_ab). Qed.
Lemma rfull_aa a b i j : four_term (cg_res_aa d nx C H T T) a b i j = four_term (ccsd_res_aa d H T T) a b i j.
Proof. exact (crs e_cg_aa e_ccsd_aa (venv [a; b; i; j]) chr_aa). Qed.
Lemma rfull_bb a b i j : four_term (cg_res_aa d nx C H T T) a b i j = four_term (ccsd_res_bb d H T T) a b i j.
Proof. exact (crs e_cg_aa e_ccsd_bb (venv [a; b; i; j]) chr_bb). Qed.
End Closed.
