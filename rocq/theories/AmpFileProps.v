(** C54: reading amplitude files of the other program suite. *)
From Coq Require Import List Arith ZArith Reals Bool Lia Lra.
From Verif Require Import AmpFileModel AmpFileSpec AmpFileProofs.
Import ListNotations.
Local Open Scope nat_scope.

(** ** The stores in terms of the file layout *)
Lemma fm_ext : forall {A B} (f g : A -> list B) l, (forall x, f x = g x) -> flat_map f l = flat_map g l.
Proof. intros A B f g l H. induction l as [|x l IH]; [reflexivity|]. cbn. now rewrite H, IH. Qed.
Lemma map_fm : forall {A B C} (f : B -> C) (g : A -> list B) l, map f (flat_map g l) = flat_map (fun x => map f (g x)) l.
Proof. intros A B C f g l. induction l as [|x l IH]; [reflexivity|]. cbn. now rewrite map_app, IH. Qed.
Ltac unroll := unfold image, loop; rewrite map_map; cbn [map app nu no]; unfold each, upto;
  repeat (rewrite map_tuples; apply fm_ext; intro); cbn [tuples map key sg fst snd]; f_equal; lra.
Ltac unrollT Ho Hu := unfold image, loop; rewrite map_map; cbn [map app nu no]; unfold each, upto; rewrite ?Ho, ?Hu;
  repeat (rewrite map_tuples, map_fm; apply fm_ext; intro); cbn [tuples map key sg fst snd]; f_equal; lra.

Section S.
Variables (s : asys) (X : op).
Lemma im_a : image X (la s) = dump_a s X. Proof. unfold la, dump_a. unroll. Qed.
Lemma im_b : image X (lb s) = dump_b s X. Proof. unfold lb, dump_b. unroll. Qed.
Lemma im_aa : forall b, image X (l2 s false [true; true] b) = dump_aa s X. Proof. intro. unfold l2, dump_aa. unroll. Qed.
Lemma im_ab : forall b, image X (l2 s false [true; false] b) = dump_ab s X. Proof. intro. unfold l2, dump_ab. unroll. Qed.
Lemma im_bb : forall b, image X (l2 s false [false; false] b) = dump_bb s X. Proof. intro. unfold l2, dump_bb. unroll. Qed.
Lemma im_aaa : forall b, image X (l3 s false [true; true; true] b) = dump_aaa s X. Proof. intro. unfold l3, dump_aaa. unroll. Qed.
Lemma im_aab : forall b, image X (l3 s false [true; true; false] b) = dump_aab s X. Proof. intro. unfold l3, dump_aab. unroll. Qed.
Lemma im_abb : forall b, image X (l3x s false [true; false; false] b) = dump_abb s X. Proof. intro. unfold l3x, dump_abb. unroll. Qed.
Lemma im_bbb : forall b, image X (l3 s false [false; false; false] b) = dump_bbb s X. Proof. intro. unfold l3, dump_bbb. unroll. Qed.
Hypothesis Ho : a_noa s = a_nob s.
Hypothesis Hu : a_nua s = a_nub s.
Lemma imT_aa : image X (l2 s true [true; true] [true; true]) = map Ropp (dump_aa s X). Proof. unfold l2, dump_aa. unrollT Ho Hu. Qed.
Lemma imT_bb : image X (l2 s true [true; false] [false; false]) = map Ropp (dump_bb s X). Proof. unfold l2, dump_bb. unrollT Ho Hu. Qed.
Lemma imT_ab : image X (l2 s true [false; false] [true; false]) = map Ropp (dump_ab s X). Proof. unfold l2, dump_ab. unrollT Ho Hu. Qed.
Lemma imT_aaa : image X (l3 s true [true; true; true] [true; true; true]) = map Ropp (dump_aaa s X). Proof. unfold l3, dump_aaa. unrollT Ho Hu. Qed.
Lemma imT_bbb : image X (l3 s true [true; true; false] [false; false; false]) = map Ropp (dump_bbb s X). Proof. unfold l3, dump_bbb. unrollT Ho Hu. Qed.
Lemma imT_aab : image X (l3x s true [true; false; false] [true; true; false]) = map Ropp (dump_aba s X). Proof. unfold l3x, dump_aba. unrollT Ho Hu. Qed.
Lemma imT_abb : image X (l3 s true [false; false; false] [true; false; false]) = map Ropp (dump_abb s X). Proof. unfold l3, dump_abb. unrollT Ho Hu. Qed.
End S.

(** ** The whole sequence of stores *)
Definition stores (s : asys) (T : bool) (order : nat) : list (block * list nat * R) :=
  singles s ++ (if 2 <=? order then doubles s T else []) ++ (if 3 <=? order then triples s T else []).
Lemma read_unfold : forall file s order ty iroot, 1 <= order <= 3 ->
  read_amplitudes file s order ty iroot =
  match run s file ((match ty with R_amps => iroot - 1 | _ => iroot end) * Z.of_nat (ndim s order)) (stores s (match ty with T_amps => true | _ => false end) order) (fun _ _ => 0%R, 0) with
  | None => None | Some (X, _) => Some X end.
Proof.
  intros file s order ty iroot H. unfold read_amplitudes, stores. destruct order as [|[|[|[|?]]]]; try lia; cbn [Nat.leb]; rewrite ?app_nil_r; reflexivity.
Qed.
Ltac bd := let b := fresh "b" in let H := fresh "H" in let K := fresh "K" in intros b H K; cbn in H, K;
  repeat (destruct H as [H|H]; [subst; cbn in K; repeat (destruct K as [K|K]; [discriminate K|]); exact K|]); exact H.
Lemma goods_order : forall s order d1 d2 d3, 
  goods s blocks1 d1 -> goods s blocks2 d2 -> goods s blocks3 d3 ->
  goods s (blocks order) (d1 ++ (if 2 <=? order then d2 else []) ++ (if 3 <=? order then d3 else [])).
Proof.
  intros s order d1 d2 d3 H1 H2 H3. unfold blocks.
  assert (N : goods s [] []) by (split; [intros w []|split; [constructor|intros b i []]]).
  destruct (2 <=? order), (3 <=? order).
  - apply goods_app; [exact H1| |bd]. apply goods_app; [exact H2|exact H3|bd].
  - apply goods_app; [exact H1| |bd]. apply goods_app; [exact H2|exact N|bd].
  - apply goods_app; [exact H1| |bd]. apply goods_app; [exact N|exact H3|bd].
  - apply goods_app; [exact H1| |bd]. apply goods_app; [exact N|exact N|bd].
Qed.
Lemma goods_stores : forall s order, goods s (blocks order) (stores s false order).
Proof.
  intros s order. apply goods_order.
  - apply (goods_app s [[true]] [[false]]); [apply goods_one, good_a|apply goods_one, good_b|bd].
  - rewrite doubles_eq. apply (goods_app s [[true; true]] [[true; false]; [false; false]]); [apply goods_one, good_2| |bd].
    apply (goods_app s [[true; false]] [[false; false]]); [apply goods_one, good_2|apply goods_one, good_2|bd].
  - rewrite triples_eq. apply (goods_app s [[true; true; true]] [[true; true; false]; [true; false; false]; [false; false; false]]); [apply goods_one, good_3| |bd].
    apply (goods_app s [[true; true; false]] [[true; false; false]; [false; false; false]]); [apply goods_one, good_3| |bd].
    apply (goods_app s [[true; false; false]] [[false; false; false]]); [apply goods_one, good_3x|apply goods_one, good_3|bd].
Qed.
Lemma goods_incl : forall s bs cs ws, (forall b, In b bs <-> In b cs) -> goods s bs ws -> goods s cs ws.
Proof.
  intros s bs cs ws E [H1 [H2 H3]]. split; [|split; [exact H2|]].
  - intros w H. rewrite <- E. now apply H1.
  - intros b i Hb. rewrite <- E in Hb. now apply H3.
Qed.
Lemma goods_storesT : forall s order, a_noa s = a_nob s -> a_nua s = a_nub s -> goods s (blocks order) (stores s true order).
Proof.
  intros s order Ho Hu. apply goods_order.
  - apply (goods_app s [[true]] [[false]]); [apply goods_one, good_a|apply goods_one, good_b|bd].
  - rewrite doubles_eq. apply (goods_incl s [[true; true]; [false; false]; [true; false]]); [intro b; cbn; tauto|].
    apply (goods_app s [[true; true]] [[false; false]; [true; false]]); [now apply goods_one, good_2T| |bd].
    apply (goods_app s [[false; false]] [[true; false]]); [now apply goods_one, good_2T|now apply goods_one, good_2T|bd].
  - rewrite triples_eq. apply (goods_incl s [[true; true; true]; [false; false; false]; [true; true; false]; [true; false; false]]); [intro b; cbn; tauto|].
    apply (goods_app s [[true; true; true]] [[false; false; false]; [true; true; false]; [true; false; false]]); [now apply goods_one, good_3T| |bd].
    apply (goods_app s [[false; false; false]] [[true; true; false]; [true; false; false]]); [now apply goods_one, good_3T| |bd].
    apply (goods_app s [[true; true; false]] [[true; false; false]]); [now apply goods_one, good_3xT|now apply goods_one, good_3T|bd].
Qed.

Lemma image_app : forall X u v, image X (u ++ v) = image X u ++ image X v.
Proof. intros. unfold image. apply map_app. Qed.
Lemma image_stores : forall s X order, image X (stores s false order) = dump s X order.
Proof.
  intros s X order. unfold stores, dump. rewrite !image_app, singles_eq, image_app, im_a, im_b. f_equal. f_equal.
  - destruct (2 <=? order); [|reflexivity]. now rewrite doubles_eq, !image_app, im_aa, im_ab, im_bb.
  - destruct (3 <=? order); [|reflexivity]. now rewrite triples_eq, !image_app, im_aaa, im_aab, im_abb, im_bbb.
Qed.
Lemma image_storesT : forall s X order, a_noa s = a_nob s -> a_nua s = a_nub s -> image X (stores s true order) = dump_T s X order.
Proof.
  intros s X order Ho Hu. unfold stores, dump_T. rewrite !image_app, singles_eq, image_app, im_a, im_b. f_equal. f_equal.
  - destruct (2 <=? order); [|reflexivity]. now rewrite doubles_eq, !image_app, imT_aa, imT_bb, imT_ab, !map_app.
  - destruct (3 <=? order); [|reflexivity]. now rewrite triples_eq, !image_app, imT_aaa, imT_bbb, imT_aab, imT_abb, !map_app.
Qed.

Lemma len_loop : forall s b tgt, length (loop s b tgt) = prod (shape s b).
Proof. intros. unfold loop, shape. rewrite map_length, len_tuples, !prod_app. apply Nat.mul_comm. Qed.
Lemma len_stores : forall s T order, 1 <= order <= 3 -> length (stores s T order) = ndim s order.
Proof.
  intros s T order H. unfold stores, ndim, blocks. rewrite singles_eq, doubles_eq, triples_eq.
  destruct order as [|[|[|[|?]]]]; try lia; cbn [Nat.leb app map fold_right blocks1 blocks2 blocks3]; unfold la, lb, l2, l3, l3x;
    rewrite !app_length, !len_loop; cbn [length]; lia.
Qed.
Lemma len_dump : forall s X order, 1 <= order <= 3 -> length (dump s X order) = ndim s order.
Proof. intros s X order H. rewrite <- image_stores. unfold image. rewrite map_length. now apply len_stores. Qed.

Lemma getitem_mid : forall before mid after k, k < length mid -> getitem (before ++ mid ++ after) (Z.of_nat k + Z.of_nat (length before)) = nth_error mid k.
Proof.
  intros before mid after k H. unfold getitem. destruct (Z.ltb_spec (Z.of_nat k + Z.of_nat (length before)) 0); [lia|].
  replace (Z.to_nat (Z.of_nat k + Z.of_nat (length before))) with (length before + k) by lia.
  rewrite nth_error_app2 by lia. replace (length before + k - length before) with k by lia. now apply nth_error_app1.
Qed.
Lemma getitem_neg : forall before mid k, k < length mid -> getitem (before ++ mid) (Z.of_nat k + - Z.of_nat (length mid)) = nth_error mid k.
Proof.
  intros before mid k H. unfold getitem. destruct (Z.ltb_spec (Z.of_nat k + - Z.of_nat (length mid)) 0); [|lia].
  rewrite app_length. destruct (Z.leb_spec (- Z.of_nat (length before + length mid)) (Z.of_nat k + - Z.of_nat (length mid))); [|lia].
  replace (Z.to_nat (Z.of_nat (length before + length mid) + (Z.of_nat k + - Z.of_nat (length mid)))) with (length before + k) by lia.
  rewrite nth_error_app2 by lia. f_equal. lia.
Qed.
Lemma shape_within : forall s b i, within s b i <-> Forall2 lt i (shape s b).
Proof. intros. unfold within, shape. reflexivity. Qed.

Lemma read_at : forall s X order ty iroot file T, 1 <= order <= 3 -> (match ty with T_amps => true | _ => false end) = T ->
  goods s (blocks order) (stores s T order) ->
  (forall k, k < ndim s order -> getitem file (Z.of_nat k + (match ty with R_amps => iroot - 1 | _ => iroot end) * Z.of_nat (ndim s order)) = nth_error (image X (stores s T order)) k) ->
  exists Y, read_amplitudes file s order ty iroot = Some Y /\ same_amplitudes s order Y X.
Proof.
  intros s X order ty iroot file T H E G K. rewrite read_unfold by assumption. rewrite E.
  destruct (goods_read s _ _ file _ X G ltac:(intros k Hk; apply K; rewrite <- (len_stores s T order H); exact Hk)) as [Y [n [R1 R2]]].
  rewrite R1. exists Y. split; [reflexivity|]. intros b i Hb Hi. apply R2; [exact Hb|]. exact Hi.
Qed.

(** The r-th state of a file of excited states (r = 1, 2, ...) is read correctly, whatever the other states are. *)
Theorem C54_excited_state : forall s X order r before after, 1 <= order <= 3 -> 1 <= r -> length before = (r - 1) * length (dump s X order) ->
  exists Y, read_amplitudes (before ++ dump s X order ++ after) s order R_amps (Z.of_nat r) = Some Y /\ same_amplitudes s order Y X.
Proof.
  intros s X order r before after H Hr L. rewrite len_dump in L by assumption. eapply read_at; [exact H|reflexivity|apply goods_stores|].
  intros k Hk. rewrite image_stores. replace ((Z.of_nat r - 1) * Z.of_nat (ndim s order))%Z with (Z.of_nat (length before)) by (rewrite L; nia).
  apply getitem_mid. now rewrite len_dump.
Qed.
(** Without a root number (iroot = 0) the state read is the last one of the file, not the first. *)
Theorem C54_default_root_is_last : forall s X order before, 1 <= order <= 3 ->
  exists Y, read_amplitudes (before ++ dump s X order) s order R_amps 0 = Some Y /\ same_amplitudes s order Y X.
Proof.
  intros s X order before H. eapply read_at; [exact H|reflexivity|apply goods_stores|].
  intros k Hk. rewrite image_stores. replace ((0 - 1) * Z.of_nat (ndim s order))%Z with (- Z.of_nat (length (dump s X order)))%Z by (rewrite len_dump by assumption; lia).
  apply getitem_neg. now rewrite len_dump.
Qed.
(** Other types count states from 0. *)
Theorem C54_other_types : forall s X order r before after, 1 <= order <= 3 -> length before = r * length (dump s X order) ->
  exists Y, read_amplitudes (before ++ dump s X order ++ after) s order other_amps (Z.of_nat r) = Some Y /\ same_amplitudes s order Y X.
Proof.
  intros s X order r before after H L. rewrite len_dump in L by assumption. eapply read_at; [exact H|reflexivity|apply goods_stores|].
  intros k Hk. rewrite image_stores. replace (Z.of_nat r * Z.of_nat (ndim s order))%Z with (Z.of_nat (length before)) by (rewrite L; lia).
  apply getitem_mid. now rewrite len_dump.
Qed.
(** Ground-state files of closed shells: doubles and triples with opposite sign, blocks in the order aa, bb, ab, aaa, bbb, aab, abb. *)
Theorem C54_ground_state : forall s X order after, 1 <= order <= 3 -> a_noa s = a_nob s -> a_nua s = a_nub s ->
  exists Y, read_amplitudes (dump_T s X order ++ after) s order T_amps 0 = Some Y /\ same_amplitudes s order Y X.
Proof.
  intros s X order after H Ho Hu. eapply read_at; [exact H|reflexivity|now apply goods_storesT|].
  intros k Hk. rewrite image_storesT by assumption. rewrite Z.mul_0_l. apply (getitem_mid [] (dump_T s X order) after).
  rewrite <- image_storesT by assumption. unfold image. rewrite map_length, len_stores by assumption. exact Hk.
Qed.
(** For open shells the ground-state reader fails on every file, if there are doubles to read. *)
Theorem C54_ground_state_open_refuted : forall s order file iroot, 2 <= order -> a_nob s < a_noa s -> 1 <= a_nob s -> 1 <= a_nua s -> 1 <= a_nub s ->
  read_amplitudes file s order T_amps iroot = None.
Proof.
  intros s order file iroot H Ho Hb Hu Hv. destruct (le_lt_dec order 3) as [L|L]; [|unfold read_amplitudes; destruct order as [|[|[|[|?]]]]; try lia; reflexivity].
  rewrite read_unfold by lia. destruct (run s file _ (stores s true order) (fun _ _ => 0%R, 0)) as [[X n]|] eqn:E; [|reflexivity]. exfalso.
  apply run_fits in E. rewrite Forall_forall in E.
  assert (I : In ([false; false], [0; 0; a_nob s; 0], (-1)%R) (stores s true order)).
  { unfold stores. apply in_app_iff. right. apply in_app_iff. left. destruct (Nat.leb_spec 2 order); [|lia]. rewrite doubles_eq. apply in_app_iff. right. apply in_app_iff. left.
    unfold l2, loop. apply in_map_iff. exists [a_nob s; 0; 0; 0]. split; [reflexivity|]. apply tuples_in. cbn [map app no nu]. repeat constructor; lia. }
  apply E in I. cbn [key fst snd] in I. apply fits_iff in I. unfold shape in I. cbn [map app no nu] in I. inv2. lia.
Qed.
(** A file that is too short raises. *)
Theorem C54_short_file : forall s order file ty r, 1 <= order <= 3 -> ty = T_amps \/ ty = other_amps -> 0 < ndim s order -> length file < (r + 1) * ndim s order ->
  read_amplitudes file s order ty (Z.of_nat r) = None.
Proof.
  intros s order file ty r H Hty P L. rewrite read_unfold by assumption.
  replace (match ty with R_amps => (Z.of_nat r - 1)%Z | _ => Z.of_nat r end) with (Z.of_nat r) by (destruct Hty; subst; reflexivity).
  set (T := match ty with T_amps => true | _ => false end).
  assert (G : forall ws st, (length file < snd st + length ws + r * ndim s order)%nat -> 0 < length ws -> run s file (Z.of_nat r * Z.of_nat (ndim s order)) ws st = None).
  { induction ws as [|[[b i] g] ws IH]; intros [X n] K N; [cbn in N; lia|]. cbn [run store]. cbn [snd length] in K.
    destruct (getitem file (Z.of_nat n + Z.of_nat r * Z.of_nat (ndim s order))) eqn:E; [|reflexivity].
    assert (B : n + r * ndim s order < length file).
    { unfold getitem in E. destruct (Z.ltb_spec (Z.of_nat n + Z.of_nat r * Z.of_nat (ndim s order)) 0); [nia|].
      assert (Q : nth_error file (Z.to_nat (Z.of_nat n + Z.of_nat r * Z.of_nat (ndim s order))) <> None) by (rewrite E; discriminate).
      apply nth_error_Some in Q. nia. }
    destruct (fits i (shape s b)); [|reflexivity]. apply IH; cbn [snd]; [lia|]. destruct ws; [cbn [length] in K; lia|cbn [length]; lia]. }
  rewrite G; [reflexivity| |]; cbn [snd]; rewrite len_stores by assumption; lia.
Qed.

(** Closed shell with one occupied and one empty orbital: 2 + 3 + 4 numbers. *)
Example C54_instance : let s := mkAsys 1 1 1 1 in ndim s 3 = 9 /\ forall X : op, length (dump s X 3) = 9 /\ length (dump_T s X 3) = 9.
Proof. split; [reflexivity|]. intro X. split; reflexivity. Qed.
Example C54_instance_value : forall Y, read_amplitudes [1; 2; 3; 4; 5; 6; 7; 8; 9; 10]%R (mkAsys 1 1 1 1) 3 T_amps 0 = Some Y ->
  Y [true; false] [0; 0; 0; 0] = (-5)%R /\ Y [false; false] [0; 0; 0; 0] = (-4)%R /\ Y [true; true; false] [0; 0; 0; 0; 0; 0] = (-8)%R.
Proof. intros Y H. cbv -[IZR Rplus Rmult Rminus Ropp Rdiv Rinv] in H. inversion H. cbv -[IZR Rplus Rmult Rminus Ropp Rdiv Rinv]. repeat split; lra. Qed.
Example C54_instance_open : let s := mkAsys 2 1 1 2 in a_nob s < a_noa s /\ 1 <= a_nob s /\ 1 <= a_nua s /\ 1 <= a_nub s /\ ndim s 2 = 16.
Proof. cbn. repeat split; lia. Qed.

Print Assumptions C54_excited_state.
Print Assumptions C54_default_root_is_last.
Print Assumptions C54_other_types.
Print Assumptions C54_ground_state.
Print Assumptions C54_ground_state_open_refuted.
Print Assumptions C54_short_file.
