(** Lemmas for C13, C14, C21. *)
From Coq Require Import List Arith NArith Bool Lia.
From Verif Require Import Base SymmetryProofs PspaceModel PspaceSpec.
Import ListNotations.

Lemma in_prange : forall lo hi x, In x (PspaceModel.range lo hi) <-> lo <= x < hi.
Proof. intros. unfold PspaceModel.range. rewrite in_seq. lia. Qed.

Lemma spin_dec : forall x y : spin, {x = y} + {x <> y}.
Proof. decide equality. Defined.

Fixpoint last_pos (x : spin) (l : list spin) : option nat :=
  match l with
  | [] => None
  | y :: r => match last_pos x r with
              | Some q => Some (S q)
              | None => if spin_dec y x then Some 0 else None
              end
  end.
Lemma last_pos_spec : forall x l,
  match last_pos x l with
  | Some q => q < length l /\ nth q l Alpha = x /\ forall p, q < p < length l -> nth p l Alpha <> x
  | None => forall p, p < length l -> nth p l Alpha <> x
  end.
Proof.
  induction l; cbn; [intros; lia|]. destruct (last_pos x l) as [q|].
  - destruct IHl as (H1 & H2 & H3). repeat split; [lia|assumption|]. intros p Hp. destruct p; [lia|]. apply H3. lia.
  - destruct (spin_dec a x) as [E|E].
    + repeat split; [lia|assumption|]. intros p Hp. destruct p; [lia|]. apply IHl. lia.
    + intros p Hp. destruct p; [assumption|]. apply IHl. lia.
Qed.

Fixpoint loops_of (size : spin -> nat) (done todo : list spin) : list (option nat * nat) :=
  match todo with
  | [] => []
  | x :: r => (last_pos x done, size x) :: loops_of size (done ++ [x]) r
  end.

(** 0-based version of [ordered]. *)
Definition ordered0 (size : spin -> nat) (sp : list spin) (l : list nat) : Prop :=
  length l = length sp /\
  (forall p, p < length sp -> nth p l 0 < size (nth p sp Alpha)) /\
  (forall p q, p < q < length sp -> nth p sp Alpha = nth q sp Alpha -> nth p l 0 < nth q l 0).

Lemma nth_map_S : forall p l, p < length l -> nth p (map S l) 0 = S (nth p l 0).
Proof. intros. rewrite nth_indep with (d' := S 0) by (rewrite map_length; lia). apply map_nth. Qed.

Lemma ordered_S : forall size sp l, ordered size sp (map S l) <-> ordered0 size sp l.
Proof.
  intros. unfold ordered, ordered0. rewrite map_length. split; intros (H1 & H2 & H3); (split; [exact H1|]); split.
  - intros p Hp. specialize (H2 p Hp). rewrite nth_map_S in H2; lia.
  - intros p q Hp E. specialize (H3 p q Hp E). rewrite !nth_map_S in H3 by lia. lia.
  - intros p Hp. specialize (H2 p Hp). rewrite nth_map_S; lia.
  - intros p q Hp E. specialize (H3 p q Hp E). rewrite !nth_map_S by lia. lia.
Qed.
Lemma ordered_pred : forall size sp l, ordered size sp l -> l = map S (map pred l).
Proof.
  intros size sp l (H1 & H2 & _). rewrite map_map. rewrite <- (map_id l) at 1. apply map_ext_in. intros x Hx.
  apply In_nth with (d := 0) in Hx as (p & Hp & <-). specialize (H2 p ltac:(lia)). lia.
Qed.

Lemma nth_snoc_l : forall X (l : list X) x d p, p < length l -> nth p (l ++ [x]) d = nth p l d.
Proof. intros. now apply app_nth1. Qed.
Lemma nth_snoc_r : forall X (l : list X) x d, nth (length l) (l ++ [x]) d = x.
Proof. intros. rewrite app_nth2, Nat.sub_diag by lia. reflexivity. Qed.

Lemma ordered0_snoc : forall size d e sp x, length e = length d ->
  (ordered0 size (d ++ [sp]) (e ++ [x]) <->
   ordered0 size d e /\ x < size sp /\ forall p, p < length d -> nth p d Alpha = sp -> nth p e 0 < x).
Proof.
  intros size d e sp x L. unfold ordered0. rewrite !app_length. cbn [length]. split.
  - intros (_ & H2 & H3). split; [split; [assumption|split]|split].
    + intros p Hp. specialize (H2 p ltac:(lia)). rewrite !nth_snoc_l in H2 by lia. exact H2.
    + intros p q Hp E. specialize (H3 p q ltac:(lia)). rewrite !nth_snoc_l in H3 by lia. now apply H3.
    + specialize (H2 (length d) ltac:(lia)). rewrite nth_snoc_r in H2. rewrite <- L, nth_snoc_r in H2. exact H2.
    + intros p Hp E. specialize (H3 p (length d) ltac:(lia)). rewrite nth_snoc_r in H3. rewrite nth_snoc_l in H3 by lia.
      specialize (H3 E). rewrite <- L, nth_snoc_r in H3. rewrite nth_snoc_l in H3 by lia. exact H3.
  - intros ((_ & H2 & H3) & H4 & H5). split; [lia|split].
    + intros p Hp. destruct (Nat.eq_dec p (length d)) as [->|N].
      * rewrite nth_snoc_r. rewrite <- L, nth_snoc_r. exact H4.
      * rewrite !nth_snoc_l by lia. apply H2. lia.
    + intros p q Hp E. destruct (Nat.eq_dec q (length d)) as [->|N].
      * rewrite nth_snoc_r in E. rewrite nth_snoc_l in E by lia. rewrite <- L, nth_snoc_r. rewrite nth_snoc_l by lia.
        apply H5; [lia|assumption].
      * rewrite !nth_snoc_l in E by lia. rewrite !nth_snoc_l by lia. apply H3; [lia|assumption].
Qed.

Lemma start_spec : forall size d e sp x, ordered0 size d e ->
  ((forall p, p < length d -> nth p d Alpha = sp -> nth p e 0 < x) <->
   match last_pos sp d with None => 0 | Some p => nth p e 0 + 1 end <= x).
Proof.
  intros size d e sp x (L & _ & H). generalize (last_pos_spec sp d). destruct (last_pos sp d) as [q|].
  - intros (Q1 & Q2 & Q3). split.
    + intros K. specialize (K q Q1 Q2). lia.
    + intros K p Hp E. destruct (lt_eq_lt_dec p q) as [[P|P]|P].
      * assert (nth p e 0 < nth q e 0) by (apply H; [lia|congruence]). lia.
      * subst. lia.
      * exfalso. apply (Q3 p); [lia|assumption].
  - intros K. split; [lia|]. intros _ p Hp E. exfalso. now apply (K p).
Qed.

Lemma nest_prefix : forall loops env l, In l (nest env loops) ->
  firstn (length env) l = env /\ length l = length env + length loops.
Proof.
  induction loops as [|(st, n) r IH]; intros env l H; cbn [nest] in H.
  - destruct H as [<-|[]]. rewrite firstn_all. cbn [length]. split; [reflexivity|lia].
  - apply in_flat_map in H as (x & _ & H). apply IH in H as (H & L). rewrite app_length in H, L. cbn [length] in *.
    split; [|lia].
    assert (E : firstn (length env) (firstn (length env + 1) l) = firstn (length env) (env ++ [x])) by now rewrite H.
    rewrite firstn_firstn in E. rewrite Nat.min_l in E by lia. rewrite E.
    rewrite firstn_app, Nat.sub_diag, firstn_all. cbn. now rewrite app_nil_r.
Qed.
Lemma nest_NoDup : forall loops env, NoDup (nest env loops).
Proof.
  induction loops as [|(st, n) r IH]; intros env; cbn [nest]; [repeat constructor; intros []|].
  apply NoDup_flat_map; [apply seq_NoDup|intros; apply IH|].
  intros a b z _ _ Ha Hb. apply nest_prefix in Ha as (Ha & _). apply nest_prefix in Hb as (Hb & _).
  rewrite app_length in Ha, Hb. cbn [length] in *. rewrite Ha in Hb. apply app_inv_head in Hb. congruence.
Qed.
Lemma nest_spec : forall size todo done env l, ordered0 size done env ->
  (In l (nest env (loops_of size done todo)) <->
   firstn (length env) l = env /\ ordered0 size (done ++ todo) l).
Proof.
  induction todo as [|sp r IH]; intros done env l O.
  - cbn [loops_of nest]. rewrite app_nil_r. cbn [In]. split.
    + intros [<-|[]]. now rewrite firstn_all.
    + intros (E & O2). left. rewrite <- E. destruct O as (L & _), O2 as (L2 & _). rewrite L, <- L2.
      now rewrite firstn_all.
  - cbn [loops_of nest]. rewrite in_flat_map. assert (L := proj1 O). split.
    + intros (x & Hx & H). apply in_prange in Hx. pose proof (proj2 (start_spec size done env sp x O) (proj1 Hx)) as S1.
      assert (O2 : ordered0 size (done ++ [sp]) (env ++ [x])) by (apply ordered0_snoc; tauto).
      pose proof (nest_prefix _ _ _ H) as (HP & HL).
      apply IH in H; [|assumption]. destruct H as (_ & H). rewrite <- app_assoc in H. split; [|exact H].
      rewrite app_length in HP. cbn [length] in HP.
      assert (E : firstn (length env) (firstn (length env + 1) l) = firstn (length env) (env ++ [x])) by now rewrite HP.
      rewrite firstn_firstn in E. rewrite Nat.min_l in E by lia. rewrite E.
      rewrite firstn_app, Nat.sub_diag, firstn_all. cbn. now rewrite app_nil_r.
    + intros (E & O2). pose (x := nth (length env) l 0).
      assert (LL : length env < length l) by (destruct O2 as (K & _); rewrite app_length in K; cbn in K; lia).
      assert (E2 : firstn (length (env ++ [x])) l = env ++ [x]).
      { rewrite app_length. cbn [length]. rewrite <- E at 2. rewrite Nat.add_1_r. unfold x. clear -LL.
        revert LL. generalize (length env). intros n. revert l. induction n; intros [|y l] H; cbn in *; try lia; [reflexivity|].
        f_equal. apply IHn. lia. }
      assert (O3 : ordered0 size (done ++ [sp]) (env ++ [x])).
      { apply ordered0_snoc; [exact L|]. split; [exact O|]. destruct O2 as (K & H2 & H3). rewrite app_length in *. cbn [length] in *.
        assert (N1 : nth (length done) (done ++ sp :: r) Alpha = sp) by (rewrite app_nth2, Nat.sub_diag by lia; reflexivity).
        split.
        - specialize (H2 (length done) ltac:(lia)). rewrite N1 in H2. unfold x. rewrite L. exact H2.
        - intros p Hp Ep. specialize (H3 p (length done) ltac:(lia)). rewrite N1 in H3. rewrite app_nth1 in H3 by lia.
          specialize (H3 Ep). unfold x. rewrite L. rewrite <- E. rewrite nth_firstn by lia. exact H3. }
      exists x. split.
      * apply in_prange. apply ordered0_snoc in O3; [|exact L]. destruct O3 as (_ & X1 & X2).
        split; [|exact X1]. now apply (start_spec size done env sp x O).
      * apply IH; [exact O3|]. rewrite <- app_assoc. split; [exact E2|exact O2].
Qed.
Lemma nest0_spec : forall size sp l, In l (nest [] (loops_of size [] sp)) <-> ordered0 size sp l.
Proof.
  intros. rewrite nest_spec.
  - cbn. tauto.
  - unfold ordered0. cbn. repeat split; intros; lia.
Qed.

Lemma flat_map_ext_in : forall X Y (f g : X -> list Y) l, (forall x, In x l -> f x = g x) -> flat_map f l = flat_map g l.
Proof. induction l; intros H; cbn; [reflexivity|]. rewrite H by now left. rewrite IHl; [reflexivity|]. intros; apply H; now right. Qed.

Lemma two_nests : forall (O I : list (list nat)) (f : list nat -> list nat -> bool) (row : list nat -> list nat -> list nat),
  NoDup O -> NoDup I ->
  (forall h p h' p', In h O -> In h' O -> In p I -> In p' I -> row h p = row h' p' -> h = h' /\ p = p') ->
  let rows := flat_map (fun h => flat_map (fun p => emit (f h p) (row h p)) I) O in
  NoDup rows /\ forall r, In r rows <-> exists h p, In h O /\ In p I /\ f h p = true /\ r = row h p.
Proof.
  intros O I f row HO HI Inj. cbv zeta. split.
  - apply NoDup_flat_map; [assumption| |].
    + intros h Hh. apply NoDup_flat_map; [assumption| |].
      * intros p Hp. unfold emit. destruct (f h p); [|constructor]. repeat constructor. intros [].
      * intros p p' z Hp Hp' Z Z'. unfold emit in *. destruct (f h p), (f h p'); cbn in *; try contradiction.
        destruct Z as [Z|[]], Z' as [Z'|[]]. apply (Inj h p h p'); auto. congruence.
    + intros h h' z Hh Hh' Z Z'. apply in_flat_map in Z as (p & Hp & Z). apply in_flat_map in Z' as (p' & Hp' & Z').
      unfold emit in *. destruct (f h p), (f h' p'); cbn in *; try contradiction.
      destruct Z as [Z|[]], Z' as [Z'|[]]. apply (Inj h p h' p'); auto. congruence.
  - intros r. rewrite in_flat_map. split.
    + intros (h & Hh & K). apply in_flat_map in K as (p & Hp & K). unfold emit in K. destruct (f h p) eqn:F; [|destruct K].
      destruct K as [K|[]]. exists h, p. repeat split; auto.
    + intros (h & p & Hh & Hp & F & ->). exists h. split; [assumption|]. apply in_flat_map. exists p. split; [assumption|].
      unfold emit. rewrite F. now left.
Qed.

Lemma excitation_S : forall s ps hs row, excitation s ps hs row <->
  exists p h, row = map S (p ++ h) /\ ordered0 (nunocc s) ps p /\ ordered0 (nocc s) hs h.
Proof.
  intros. unfold excitation. split.
  - intros (p & h & -> & Hp & Hh). exists (map pred p), (map pred h).
    rewrite map_app, <- (ordered_pred _ _ _ Hp), <- (ordered_pred _ _ _ Hh). split; [reflexivity|].
    rewrite <- !ordered_S, <- (ordered_pred _ _ _ Hp), <- (ordered_pred _ _ _ Hh). tauto.
  - intros (p & h & -> & Hp & Hh). exists (map S p), (map S h). rewrite map_app, !ordered_S. tauto.
Qed.

(** The common shape of all list builders: holes outside, or particles outside. *)
Definition hole_major (s : orbsys) (ps hs : list spin) (cond : list nat -> list nat -> bool) : list (list nat) :=
  flat_map (fun h => flat_map (fun p => emit (cond p h) (map S (p ++ h))) (nest [] (loops_of (nunocc s) [] ps)))
    (nest [] (loops_of (nocc s) [] hs)).
Definition particle_major (s : orbsys) (ps hs : list spin) (cond : list nat -> list nat -> bool) : list (list nat) :=
  flat_map (fun p => flat_map (fun h => emit (cond p h) (map S (p ++ h))) (nest [] (loops_of (nocc s) [] hs)))
    (nest [] (loops_of (nunocc s) [] ps)).

Lemma map_S_inj : forall l l', map S l = map S l' -> l = l'.
Proof. induction l; intros [|b l'] E; cbn in E; try congruence. injection E as -> E. f_equal. now apply IHl. Qed.
Lemma app_len_inj : forall X (a b a' b' : list X), length a = length a' -> a ++ b = a' ++ b' -> a = a' /\ b = b'.
Proof.
  induction a; intros b [|y a'] b' L E; cbn in *; try lia; [split; congruence|].
  injection E as -> E. apply IHa in E; [|lia]. destruct E as (-> & ->). auto.
Qed.

Lemma hole_major_spec : forall s ps hs cond Q,
  (forall p h, ordered0 (nunocc s) ps p -> ordered0 (nocc s) hs h -> (cond p h = true <-> Q (map S (p ++ h)))) ->
  lists_exactly (fun row => excitation s ps hs row /\ Q row) (hole_major s ps hs cond).
Proof.
  intros s ps hs cond Q HQ. unfold hole_major.
  destruct (two_nests (nest [] (loops_of (nocc s) [] hs)) (nest [] (loops_of (nunocc s) [] ps))
              (fun h p => cond p h) (fun h p => map S (p ++ h)) (nest_NoDup _ _) (nest_NoDup _ _)) as (N & M).
  { intros h p h' p' H1 H2 H3 H4 E. apply nest0_spec in H3 as (L1 & _), H4 as (L2 & _).
    apply map_S_inj in E. apply app_len_inj in E; [tauto|lia]. }
  split; [exact N|]. intros row. rewrite M. rewrite excitation_S. split.
  - intros (h & p & Hh & Hp & C & ->). apply nest0_spec in Hh, Hp. split; [exists p, h; tauto|]. now apply HQ.
  - intros ((p & h & -> & Hp & Hh) & C). exists h, p. rewrite !nest0_spec. rewrite HQ; tauto.
Qed.
Lemma particle_major_spec : forall s ps hs cond Q,
  (forall p h, ordered0 (nunocc s) ps p -> ordered0 (nocc s) hs h -> (cond p h = true <-> Q (map S (p ++ h)))) ->
  lists_exactly (fun row => excitation s ps hs row /\ Q row) (particle_major s ps hs cond).
Proof.
  intros s ps hs cond Q HQ. unfold particle_major.
  destruct (two_nests (nest [] (loops_of (nunocc s) [] ps)) (nest [] (loops_of (nocc s) [] hs))
              (fun p h => cond p h) (fun p h => map S (p ++ h)) (nest_NoDup _ _) (nest_NoDup _ _)) as (N & M).
  { intros p h p' h' H1 H2 H3 H4 E. apply nest0_spec in H1 as (L1 & _), H2 as (L2 & _).
    apply map_S_inj in E. apply app_len_inj in E; [tauto|lia]. }
  split; [exact N|]. intros row. rewrite M. rewrite excitation_S. split.
  - intros (p & h & Hp & Hh & C & ->). apply nest0_spec in Hh, Hp. split; [exists p, h; tauto|]. now apply HQ.
  - intros ((p & h & -> & Hp & Hh) & C). exists p, h. rewrite !nest0_spec. rewrite HQ; tauto.
Qed.

(** ** Irreps *)
Lemma fold_lxor : forall (f : nat -> N) l a, fold_left (fun acc o => N.lxor acc (f o)) l a = N.lxor a (PspaceSpec.irrep_product (map f l)).
Proof.
  unfold PspaceSpec.irrep_product. induction l; intros b; cbn [map fold_left fold_right]; [now rewrite N.lxor_0_r|]. rewrite IHl. now rewrite N.lxor_assoc.
Qed.
Lemma pirrep_app : forall l l', PspaceSpec.irrep_product (l ++ l') = N.lxor (PspaceSpec.irrep_product l) (PspaceSpec.irrep_product l').
Proof. unfold PspaceSpec.irrep_product. induction l; intros; cbn [app fold_right]; [now rewrite N.lxor_0_l|]. rewrite IHl. now rewrite N.lxor_assoc. Qed.

Definition shifted (s : orbsys) (ps : list spin) (p : list nat) : list nat := map (fun z => snd z + nocc s (fst z)) (combine ps p).

Lemma firstn_map_app : forall X Y (f : X -> Y) p h n, length p = n -> firstn n (map f (p ++ h)) = map f p.
Proof. intros. subst. rewrite map_app, firstn_app, map_length, Nat.sub_diag. cbn. rewrite app_nil_r. rewrite <- (map_length f p). apply firstn_all. Qed.
Lemma skipn_map_app : forall X Y (f : X -> Y) p h n, length p = n -> skipn n (map f (p ++ h)) = map f h.
Proof. intros. subst. rewrite map_app, skipn_app, map_length, Nat.sub_diag. rewrite <- (map_length f p) at 1. now rewrite skipn_all. Qed.

Lemma checksym_spec : forall s target ps hs p h, length p = length ps ->
  (checksym s target (h ++ shifted s ps p) = true <-> matches_target s target ps hs (map S (p ++ h))).
Proof.
  intros s target ps hs p h L. unfold checksym, matches_target. destruct target as [t|]; [|tauto].
  rewrite N.eqb_eq, fold_lxor. unfold row_irrep.
  rewrite firstn_map_app, skipn_map_app by exact L. rewrite map_app, pirrep_app, map_map.
  replace (map (fun x => osym s (S x - 1)) h) with (map (osym s) h)
    by (apply map_ext; intros; f_equal; lia).
  replace (map (fun z => osym s (nocc s (fst z) + snd z - 1)) (combine ps (map S p))) with (map (osym s) (shifted s ps p)).
  { tauto. }
  unfold shifted. rewrite map_map. clear. revert p. induction ps; intros [|x p]; cbn; try reflexivity.
  rewrite IHps. f_equal. f_equal. lia.
Qed.

(** ** Active counts *)
Lemma active_hole_alt : forall x n m, active_hole x n m = if n <? S x + m then 1 else 0.
Proof. intros. unfold active_hole. destruct (Nat.ltb_spec x (n - m)), (Nat.ltb_spec n (S x + m)); lia. Qed.

Definition cntp (s : orbsys) (ps : list spin) (p : list nat) : nat := count (fun x a => a <=? nact_unocc s x) ps (map S p).
Definition cnth (s : orbsys) (hs : list spin) (h : list nat) : nat := count (fun x i => nocc s x <? i + nact_occ s x) hs (map S h).
Lemma cntp_spec : forall s ps p h, length p = length ps -> active_particles s ps (map S (p ++ h)) = cntp s ps p.
Proof. intros. unfold active_particles, cntp. now rewrite firstn_map_app. Qed.
Lemma cnth_spec : forall s ps hs p h, length p = length ps -> active_holes s ps hs (map S (p ++ h)) = cnth s hs h.
Proof. intros. unfold active_holes, cnth. now rewrite skipn_map_app. Qed.

Lemma cntp_nil : forall s, cntp s [] [] = 0. Proof. reflexivity. Qed.
Lemma cntp_cons : forall s x ps a p, cntp s (x :: ps) (a :: p) = active_particle a (nact_unocc s x) + cntp s ps p.
Proof. intros. unfold cntp, count, active_particle, Nat.ltb. cbn [map combine filter fst snd]. destruct (S a <=? nact_unocc s x); reflexivity. Qed.
Lemma cnth_nil : forall s, cnth s [] [] = 0. Proof. reflexivity. Qed.
Lemma cnth_cons : forall s x hs i h, cnth s (x :: hs) (i :: h) = active_hole i (nocc s x) (nact_occ s x) + cnth s hs h.
Proof. intros. rewrite active_hole_alt. unfold cnth, count. cbn [map combine filter fst snd]. destruct (nocc s x <? S i + nact_occ s x); reflexivity. Qed.

Ltac norm_counts :=
  unfold count_occ_a, count_occ_b, count_unocc_a, count_unocc_b, list_sum; cbn [map fold_right];
  repeat (rewrite cntp_cons || rewrite cnth_cons); rewrite ?cntp_nil, ?cnth_nil; cbn [nocc nact_occ nact_unocc].

Ltac fixlen H := apply nest_prefix in H; destruct H as [_ H]; cbn in H;
  match type of H with length ?l = _ => repeat (destruct l as [|? l]; cbn in H; try discriminate H; [idtac]) || idtac end.

(** ** The concrete loop nests are instances of the common shape *)
Definition cond_p s n t ps hs p h := negb (cnth s hs h <? n) && (n <=? cntp s ps p) && checksym s t (h ++ shifted s ps p).
Definition cond_q s n t ps hs p h := ((cntp s ps p <? n) || (cnth s hs h <? n)) && checksym s t (h ++ shifted s ps p).
Definition cond_g s t (q : barray) ps p h := q (p ++ h) && checksym s t (h ++ shifted s ps p).
Definition cond_h s n t ps hs p h := negb (cnth s hs h <? n) && checksym s t (h ++ shifted s ps p).
Definition cond_pp s n t ps p h := negb (cntp s ps p <? n) && checksym s t (h ++ shifted s ps p).

Lemma pull_if : forall X Y (b : bool) (f : X -> list Y) l,
  (if b then [] else flat_map f l) = flat_map (fun x => if b then [] else f x) l.
Proof. intros. destruct b; [|reflexivity]. induction l; [reflexivity|exact IHl]. Qed.
Lemma leaf_p : forall x x' y y' n d r r', x = x' -> y = y' -> r = r' ->
  (if x <? n then [] else if n <=? y then emit d r else []) = emit (negb (x' <? n) && (n <=? y') && d) r'.
Proof. intros; subst. destruct (x' <? n), (n <=? y'); reflexivity. Qed.
Lemma leaf_q : forall x x' y y' n d r r', x = x' -> y = y' -> r = r' ->
  (if (y <? n) || (x <? n) then emit d r else []) = emit (((y' <? n) || (x' <? n)) && d) r'.
Proof. intros; subst. destruct (x' <? n), (y' <? n); reflexivity. Qed.
Lemma leaf_1 : forall x x' n d r r', x = x' -> r = r' ->
  (if x <? n then [] else emit d r) = emit (negb (x' <? n) && d) r'.
Proof. intros; subst. destruct (x' <? n); reflexivity. Qed.
Lemma leaf_g : forall (b b' : bool) d r r', b = b' -> r = r' -> (if b then emit d r else []) = emit (b' && d) r'.
Proof. intros; subst. destruct b'; reflexivity. Qed.

Lemma len0 : forall (l : list nat), length l = 0 -> l = [].
Proof. intros [|] H; [reflexivity|discriminate]. Qed.
Lemma lenS : forall n (l : list nat), length l = S n -> exists x r, l = x :: r /\ length r = n.
Proof. intros n [|x r] H; [discriminate|]. exists x, r. cbn in H. split; [reflexivity|lia]. Qed.
Ltac open_list H :=
  lazymatch type of H with
  | length ?l = S ?n => let x := fresh "x" in let r := fresh "r" in let E := fresh "E" in let K := fresh "K" in
       apply lenS in H as (x & r & E & K); subst l; open_list K
  | length ?l = 0 => apply len0 in H; subst l
  end.
Ltac enter := apply flat_map_ext_in; let h := fresh "h" in let H := fresh "H" in
  intros h H; apply nest_prefix in H; destruct H as [_ H]; cbn in H; open_list H; cbv iota beta.
Ltac row_eq := cbn [app map]; rewrite ?Nat.add_1_r; reflexivity.
Ltac cnt_eq := unfold aa, ab, bb, aaa, aab, abb, bbb, abaa, abab, abbb; norm_counts; lia.

Lemma active_p_aaa_gen : forall s n t, active_p_aaa s n t = hole_major s aaa aaa (cond_p s n t aaa aaa).
Proof. intros. unfold active_p_aaa, hole_major. enter. rewrite pull_if. enter. apply leaf_p; [cnt_eq|cnt_eq|row_eq]. Qed.
Lemma active_p_aab_gen : forall s n t, active_p_aab s n t = hole_major s aab aab (cond_p s n t aab aab).
Proof. intros. unfold active_p_aab, hole_major. enter. rewrite pull_if. enter. apply leaf_p; [cnt_eq|cnt_eq|row_eq]. Qed.
Lemma active_p_abb_gen : forall s n t, active_p_abb s n t = hole_major s abb abb (cond_p s n t abb abb).
Proof. intros. unfold active_p_abb, hole_major. enter. rewrite pull_if. enter. apply leaf_p; [cnt_eq|cnt_eq|row_eq]. Qed.
Lemma active_p_bbb_gen : forall s n t, active_p_bbb s n t = hole_major s bbb bbb (cond_p s n t bbb bbb).
Proof. intros. unfold active_p_bbb, hole_major. enter. rewrite pull_if. enter. apply leaf_p; [cnt_eq|cnt_eq|row_eq]. Qed.
Lemma active_q_aaa_gen : forall s n t, active_q_aaa s n t = hole_major s aaa aaa (cond_q s n t aaa aaa).
Proof. intros. unfold active_q_aaa, hole_major. enter. enter. apply leaf_q; [cnt_eq|cnt_eq|row_eq]. Qed.
Lemma active_q_aab_gen : forall s n t, active_q_aab s n t = hole_major s aab aab (cond_q s n t aab aab).
Proof. intros. unfold active_q_aab, hole_major. enter. enter. apply leaf_q; [cnt_eq|cnt_eq|row_eq]. Qed.
Lemma active_q_abb_gen : forall s n t, active_q_abb s n t = hole_major s abb abb (cond_q s n t abb abb).
Proof. intros. unfold active_q_abb, hole_major. enter. enter. apply leaf_q; [cnt_eq|cnt_eq|row_eq]. Qed.
Lemma active_q_bbb_gen : forall s n t, active_q_bbb s n t = hole_major s bbb bbb (cond_q s n t bbb bbb).
Proof. intros. unfold active_q_bbb, hole_major. enter. enter. apply leaf_q; [cnt_eq|cnt_eq|row_eq]. Qed.

Definition gen_q s t ps (P : list (list nat)) : option (list (list nat)) :=
  match mark_pspace (shape_of s ps ps) P with None => None | Some q => Some (hole_major s ps ps (cond_g s t q ps)) end.
Ltac q_gen := intros; unfold gen_q, shape_of; cbn [map app nunocc nocc aaa aab abb bbb];
  match goal with |- context [mark_pspace ?a ?b] => destruct (mark_pspace a b) as [q|]; [|reflexivity] end;
  f_equal; unfold hole_major; enter; enter; apply leaf_g; [reflexivity|row_eq].
Lemma q_aaa_gen : forall s t P, q_aaa s t P = gen_q s t aaa P. Proof. unfold q_aaa. q_gen. Qed.
Lemma q_aab_gen : forall s t P, q_aab s t P = gen_q s t aab P. Proof. unfold q_aab. q_gen. Qed.
Lemma q_abb_gen : forall s t P, q_abb s t P = gen_q s t abb P. Proof. unfold q_abb. q_gen. Qed.
Lemma q_bbb_gen : forall s t P, q_bbb s t P = gen_q s t bbb P. Proof. unfold q_bbb. q_gen. Qed.

Ltac one_gen := enter; rewrite pull_if; enter; apply leaf_1; [cnt_eq|row_eq].
Lemma p3p2h_aaa : forall s n t, active_3p2h_aaa s n t = particle_major s aaa aa (cond_pp s n t aaa).
Proof. intros. unfold active_3p2h_aaa, particle_major. one_gen. Qed.
Lemma p3p2h_aab : forall s n t, active_3p2h_aab s n t = particle_major s aab ab (cond_pp s n t aab).
Proof. intros. unfold active_3p2h_aab, particle_major. one_gen. Qed.
Lemma p3p2h_abb : forall s n t, active_3p2h_abb s n t = particle_major s abb bb (cond_pp s n t abb).
Proof. intros. unfold active_3p2h_abb, particle_major. one_gen. Qed.
Lemma p3h2p_aaa : forall s n t, active_3h2p_aaa s n t = hole_major s aa aaa (cond_h s n t aa aaa).
Proof. intros. unfold active_3h2p_aaa, hole_major. one_gen. Qed.
Lemma p3h2p_aab : forall s n t, active_3h2p_aab s n t = hole_major s ab aab (cond_h s n t ab aab).
Proof. intros. unfold active_3h2p_aab, hole_major. one_gen. Qed.
Lemma p3h2p_abb : forall s n t, active_3h2p_abb s n t = hole_major s bb abb (cond_h s n t bb abb).
Proof. intros. unfold active_3h2p_abb, hole_major. one_gen. Qed.
Lemma p4p2h_abaa : forall s n t, active_4p2h_abaa s n t = particle_major s abaa aa (cond_pp s n t abaa).
Proof. intros. unfold active_4p2h_abaa, particle_major. one_gen. Qed.
Lemma p4p2h_abab : forall s n t, active_4p2h_abab s n t = particle_major s abab ab (cond_pp s n t abab).
Proof. intros. unfold active_4p2h_abab, particle_major. one_gen. Qed.
Lemma p4p2h_abbb : forall s n t, active_4p2h_abbb s n t = particle_major s abbb bb (cond_pp s n t abbb).
Proof. intros. unfold active_4p2h_abbb, particle_major. one_gen. Qed.

(** ** Meaning of the conditions *)
Lemma cond_p_spec : forall s n t ps hs p h, ordered0 (nunocc s) ps p -> ordered0 (nocc s) hs h ->
  (cond_p s n t ps hs p h = true <->
   in_active_p s n ps hs (map S (p ++ h)) /\ matches_target s t ps hs (map S (p ++ h))).
Proof.
  intros s n t ps hs p h (Lp & _) _. unfold cond_p, in_active_p. rewrite cntp_spec, cnth_spec by exact Lp.
  rewrite !andb_true_iff, checksym_spec with (hs := hs) by exact Lp. rewrite negb_true_iff, Nat.ltb_ge, Nat.leb_le. tauto.
Qed.
Lemma cond_q_spec : forall s n t ps hs p h, ordered0 (nunocc s) ps p -> ordered0 (nocc s) hs h ->
  (cond_q s n t ps hs p h = true <->
   ~ in_active_p s n ps hs (map S (p ++ h)) /\ matches_target s t ps hs (map S (p ++ h))).
Proof.
  intros s n t ps hs p h (Lp & _) _. unfold cond_q, in_active_p. rewrite cntp_spec, cnth_spec by exact Lp.
  rewrite !andb_true_iff, checksym_spec with (hs := hs) by exact Lp. rewrite orb_true_iff, !Nat.ltb_lt.
  split; intros (A & B); (split; [lia|exact B]).
Qed.
Lemma cond_pp_spec : forall s n t ps hs p h, ordered0 (nunocc s) ps p -> ordered0 (nocc s) hs h ->
  (cond_pp s n t ps p h = true <->
   n <= active_particles s ps (map S (p ++ h)) /\ matches_target s t ps hs (map S (p ++ h))).
Proof.
  intros s n t ps hs p h (Lp & _) _. unfold cond_pp. rewrite cntp_spec by exact Lp.
  rewrite !andb_true_iff, checksym_spec with (hs := hs) by exact Lp. rewrite negb_true_iff, Nat.ltb_ge. tauto.
Qed.
Lemma cond_h_spec : forall s n t ps hs p h, ordered0 (nunocc s) ps p -> ordered0 (nocc s) hs h ->
  (cond_h s n t ps hs p h = true <->
   n <= active_holes s ps hs (map S (p ++ h)) /\ matches_target s t ps hs (map S (p ++ h))).
Proof.
  intros s n t ps hs p h (Lp & _) _. unfold cond_h. rewrite cnth_spec by exact Lp.
  rewrite !andb_true_iff, checksym_spec with (hs := hs) by exact Lp. rewrite negb_true_iff, Nat.ltb_ge. tauto.
Qed.

Lemma lists_ext : forall P Q rows, (forall r, P r <-> Q r) -> lists_exactly P rows -> lists_exactly Q rows.
Proof. intros P Q rows E (N & H). split; [exact N|]. intros r. rewrite H. apply E. Qed.
Lemma finish_spec : forall w P rows, lists_exactly P rows -> returns_exactly w P (finish w rows).
Proof.
  intros w P rows (N & H). unfold returns_exactly, finish. destruct rows as [|r rows].
  - right. split; [|reflexivity]. intros row K. now apply H in K.
  - left. split; [split; assumption|discriminate].
Qed.

(** ** The Boolean array *)
Lemma list_eqb_spec : forall l l', list_eqb l l' = true <-> l = l'.
Proof.
  induction l; intros [|b l']; cbn; try (split; [discriminate|discriminate]); [tauto|].
  rewrite andb_true_iff, Nat.eqb_eq, IHl. split; [intros (-> & ->); reflexivity|intros E; injection E; auto].
Qed.
Lemma axis_fits : forall shape row, fits shape row -> axis_indices shape row = Some (map pred row).
Proof.
  induction 1 as [|n x sh r Hx Hr IH]; cbn; [reflexivity|]. rewrite IH. unfold axis_index. destruct x; [lia|].
  destruct (Nat.ltb_spec x n); [reflexivity|lia].
Qed.
Lemma fits_pred : forall shape row, fits shape row -> row = map S (map pred row).
Proof. induction 1; cbn; [reflexivity|]. f_equal; [lia|assumption]. Qed.
Lemma mark_spec : forall shape P, Forall (fits shape) P -> hd_error P <> Some (repeat 1 6) ->
  exists q, mark_pspace shape P = Some q /\ forall l, q l = true <-> ~ In (map S l) P.
Proof.
  intros shape P F Hd. destruct P as [|r P].
  - exists (fun _ => true). split; [reflexivity|]. intros l. cbn. tauto.
  - cbn [mark_pspace]. cbn [hd_error] in Hd.
    destruct (list_eqb r (repeat 1 6)) eqn:E; [apply list_eqb_spec in E; congruence|]. clear Hd E.
    assert (G : forall L q0, Forall (fits shape) L -> exists q, fold_left (clear_row shape) L (Some q0) = Some q /\
                  forall l, q l = true <-> (q0 l = true /\ ~ In (map S l) L)).
    { clear F. induction L as [|x L IH]; intros q0 F; cbn [fold_left].
      - exists q0. split; [reflexivity|]. intros l. cbn. tauto.
      - inversion F as [|? ? Fx FL]; subst. unfold clear_row at 2. rewrite (axis_fits _ _ Fx).
        destruct (IH (fun l => if list_eqb l (map pred x) then false else q0 l) FL) as (q & Eq & Hq).
        exists q. split; [exact Eq|]. intros l. rewrite Hq. cbn [In].
        destruct (list_eqb l (map pred x)) eqn:E.
        + apply list_eqb_spec in E. subst l. rewrite <- (fits_pred _ _ Fx). split; [intros (K & _); discriminate|].
          intros (_ & K). exfalso. apply K. now left.
        + split; [intros (A & B)|intros (A & B)]; (split; [exact A|]); [|tauto].
          intros [C|C]; [|tauto]. rewrite (fits_pred _ _ Fx) in C. apply map_S_inj in C. subst l.
          assert (list_eqb (map pred x) (map pred x) = true) by now apply list_eqb_spec. congruence. }
    destruct (G (r :: P) (fun _ => true) F) as (q & Eq & Hq). exists q. split; [exact Eq|]. intros l. rewrite Hq. tauto.
Qed.
Lemma mark_placeholder : forall shape P, hd_error P = Some (repeat 1 6) -> mark_pspace shape P = Some (fun _ => true).
Proof. intros shape [|r P] H; [discriminate|]. cbn [hd_error] in H. injection H as ->. reflexivity. Qed.
Lemma axis_out : forall shape row, length shape = length row -> (exists p, p < length row /\ nth p shape 0 < nth p row 0) ->
  axis_indices shape row = None.
Proof.
  induction shape as [|n sh IH]; intros [|x r] L (p & Hp & K); cbn in *; try lia.
  destruct p; cbn in K.
  - unfold axis_index. destruct x; [lia|]. destruct (Nat.ltb_spec x n); [lia|reflexivity].
  - rewrite IH; [now destruct (axis_index n x)|lia|]. exists p. split; [lia|exact K].
Qed.
Lemma clear_none : forall shape L, fold_left (clear_row shape) L None = None.
Proof. induction L; [reflexivity|exact IHL]. Qed.
Lemma clear_bad : forall shape L q, (exists row, In row L /\ axis_indices shape row = None) -> fold_left (clear_row shape) L q = None.
Proof.
  induction L as [|x L IH]; intros q (row & I & A); [destruct I|]. cbn [fold_left]. destruct I as [->|I].
  - unfold clear_row at 2. rewrite A. destruct q; apply clear_none.
  - apply IH. eauto.
Qed.

Lemma ordered_fits : forall size sp l, ordered size sp l -> fits (map size sp) l.
Proof.
  intros size sp l (L & H & _). unfold fits. revert l L H. induction sp; intros [|x l] L H; cbn in L; try lia; cbn; constructor.
  - exact (H 0 ltac:(cbn; lia)).
  - apply IHsp; [lia|]. intros p Hp. exact (H (S p) ltac:(cbn; lia)).
Qed.
Lemma excitation_fits : forall s ps hs row, excitation s ps hs row -> fits (shape_of s ps hs) row.
Proof.
  intros s ps hs row (p & h & -> & Hp & Hh). unfold fits, shape_of. apply Forall2_app; now apply ordered_fits.
Qed.

Lemma gen_q_spec : forall s t ps P, Forall (fits (shape_of s ps ps)) P -> hd_error P <> Some (repeat 1 6) ->
  exists rows, gen_q s t ps P = Some rows /\
    lists_exactly (fun row => excitation s ps ps row /\ (~ In row P /\ matches_target s t ps ps row)) rows.
Proof.
  intros s t ps P F Hd. destruct (mark_spec _ _ F Hd) as (q & E & Hq). unfold gen_q. rewrite E. eexists. split; [reflexivity|].
  apply hole_major_spec. intros p h (Lp & _) _. unfold cond_g. rewrite andb_true_iff, checksym_spec with (hs := ps) by exact Lp.
  rewrite Hq. tauto.
Qed.
Lemma gen_q_placeholder : forall s t ps P, hd_error P = Some (repeat 1 6) ->
  exists rows, gen_q s t ps P = Some rows /\
    lists_exactly (fun row => excitation s ps ps row /\ matches_target s t ps ps row) rows.
Proof.
  intros s t ps P Hd. unfold gen_q. rewrite (mark_placeholder _ _ Hd). eexists. split; [reflexivity|].
  apply hole_major_spec. intros p h (Lp & _) _. unfold cond_g. rewrite andb_true_iff, checksym_spec with (hs := ps) by exact Lp.
  tauto.
Qed.

(** ** Sorted unique rows *)
Lemma row_lt_spec : forall l l', row_lt l l' = true <-> lex l l'.
Proof.
  induction l as [|x l IH]; intros [|y l']; cbn [row_lt]; try (split; [discriminate|intros H; inversion H]).
  rewrite orb_true_iff, andb_true_iff, Nat.ltb_lt, Nat.eqb_eq, IH. split.
  - intros [H|(-> & H)]; now constructor.
  - intros H. inversion H; subst; auto.
Qed.
Lemma lex_trans : forall a b c, lex a b -> lex b c -> lex a c.
Proof.
  intros a b c H. revert c. induction H; intros c K; inversion K; subst; try (constructor; lia).
  - now apply lex_next, IHlex.
Qed.
Lemma lex_irrefl : forall a, ~ lex a a.
Proof. induction a; intros H; inversion H; subst; [lia|contradiction]. Qed.
Lemma lex_total : forall l l', length l = length l' -> lex l l' \/ l = l' \/ lex l' l.
Proof.
  induction l as [|x l IH]; intros [|y l'] L; cbn in L; try lia; [auto|].
  destruct (lt_eq_lt_dec x y) as [[H|H]|H].
  - left. now constructor.
  - subst. destruct (IH l' ltac:(lia)) as [K|[K|K]]; [left; now constructor|subst; auto|right; right; now constructor].
  - right. right. now constructor.
Qed.

Lemma insert_row_in : forall r l x, In x (insert_row r l) <-> x = r \/ In x l.
Proof.
  induction l as [|y l IH]; intros x; cbn; [intuition congruence|].
  destruct (row_lt r y); [cbn; intuition congruence|].
  destruct (list_eqb r y) eqn:E; [apply list_eqb_spec in E; subst; cbn; intuition congruence|].
  cbn. rewrite IH. tauto.
Qed.
Lemma insert_row_sorted : forall n r l, length r = n -> (forall y, In y l -> length y = n) -> sorted_rows l -> sorted_rows (insert_row r l).
Proof.
  induction l as [|y l IH]; intros Lr Ll S; cbn [insert_row]; [constructor; [intros ? []|constructor]|].
  inversion S; subst.
  destruct (row_lt r y) eqn:E1.
  - apply row_lt_spec in E1. constructor; [|exact S]. intros z [<-|Hz]; [assumption|]. eapply lex_trans; [exact E1|auto].
  - destruct (list_eqb r y) eqn:E2; [exact S|]. constructor.
    + intros z Hz. apply insert_row_in in Hz as [->|Hz]; [|auto].
      assert (LL : length r = length y) by (symmetry; apply Ll; now left).
      destruct (lex_total r y LL) as [K|[K|K]]; [| |assumption].
      * apply row_lt_spec in K. congruence.
      * apply list_eqb_spec in K. congruence.
    + apply IH; auto. intros; apply Ll; now right.
Qed.
Lemma unique_spec : forall n l, (forall y, In y l -> length y = n) ->
  sorted_rows (np_unique_rows l) /\ forall x, In x (np_unique_rows l) <-> In x l.
Proof.
  induction l as [|r l IH]; intros L; cbn; [split; [constructor|tauto]|].
  destruct IH as (S & M); [intros; apply L; now right|]. split.
  - apply (insert_row_sorted n); auto; [apply L; now left|]. intros y Hy. apply L. right. now apply M.
  - intros x. rewrite insert_row_in, M. intuition congruence.
Qed.
