(** Lemmas for C16: zeroing outside the active space. *)
From Coq Require Import List Arith Bool Reals Lia Lra.
From Verif Require Import Base PspaceModel PspaceSpec PspaceProofs ScatterModel ScatterSpec ScatterProofs.
Import ListNotations.

Lemma zero_row_spec : forall shape L T, (forall l, In l L -> in_bounds shape l = true) ->
  exists X, zero_row shape (Some T) L = Some X /\ forall l, X l = if existsb (list_eqb l) L then 0%R else T l.
Proof.
  unfold zero_row. induction L as [|l0 L IH]; intros T B.
  - exists T. split; reflexivity.
  - cbn [fold_left]. unfold write at 2. rewrite (B l0) by now left.
    destruct (IH (fun l => if list_eqb l l0 then 0%R else T l)) as (X & E & H); [intros; apply B; now right|].
    exists X. split; [exact E|]. intros l. rewrite H. cbn [existsb].
    destruct (list_eqb l l0), (existsb (list_eqb l) L); reflexivity.
Qed.
Lemma zero_fold : forall X (shape : list nat) (body : X -> option tensor -> option tensor) (hit : X -> list nat -> bool) L T,
  (forall x T, In x L -> exists T', body x (Some T) = Some T' /\ forall l, T' l = if hit x l then 0%R else T l) ->
  exists T', fold_left (fun T x => body x T) L (Some T) = Some T' /\ forall l, T' l = if existsb (fun x => hit x l) L then 0%R else T l.
Proof.
  induction L as [|x L IH]; intros T B.
  - exists T. split; reflexivity.
  - cbn [fold_left]. destruct (B x T (or_introl eq_refl)) as (T1 & -> & H1).
    destruct (IH T1) as (T' & E & H); [intros; apply B; now right|]. exists T'. split; [exact E|].
    intros l. rewrite H, H1. cbn [existsb]. destruct (hit x l), (existsb (fun x => hit x l) L); reflexivity.
Qed.
Lemma fold_left_ext_in : forall A B (f g : A -> B -> A) l a, (forall a x, In x l -> f a x = g a x) -> fold_left f l a = fold_left g l a.
Proof. induction l; intros b H; [reflexivity|]. cbn. rewrite H by now left. apply IHl. intros; apply H; now right. Qed.

Section Zero.
Variables (s : orbsys) (n : nat) (ps : list spin) (groups : list (list nat)) (shape : list nat)
          (Z : list nat -> list (list nat)) (canon : list nat -> list nat).
Hypothesis Zb : forall r l, Grow s ps ps r -> In l (Z r) -> in_bounds shape l = true /\ distinct_in groups l.
Hypothesis Zc : forall r l, Grow s ps ps r -> In l (Z r) -> canon l = r.
Hypothesis Cl : forall l, in_bounds shape l = true -> distinct_in groups l -> Grow s ps ps (canon l) /\ In l (Z (canon l)).
Hypothesis Cc : forall l, in_bounds shape l = true -> distinct_in groups l ->
  (in_active_p s n ps ps (map S (canon l)) <-> in_active_p s n ps ps (map S l)).

Definition out_cond (p h : list nat) : bool := (cnth s ps h <? n) || (cntp s ps p <? n).

Lemma zero_generic : forall T, exists X,
  fold_left (fun T p => fold_left (fun T h => if out_cond p h then zero_row shape T (Z (p ++ h)) else T)
    (nest [] (loops_of (nocc s) [] ps)) T) (nest [] (loops_of (nunocc s) [] ps)) (Some T) = Some X /\
  zeroes_outside s n ps groups shape T X.
Proof.
  intros T.
  pose (hit := fun p h l => out_cond p h && existsb (list_eqb l) (Z (p ++ h))).
  destruct (zero_fold _ shape (fun p T => fold_left (fun T h => if out_cond p h then zero_row shape T (Z (p ++ h)) else T)
    (nest [] (loops_of (nocc s) [] ps)) T) (fun p l => existsb (fun h => hit p h l) (nest [] (loops_of (nocc s) [] ps)))
    (nest [] (loops_of (nunocc s) [] ps)) T) as (X & E & H).
  { intros p T0 Hp.
    apply (zero_fold _ shape (fun h T => if out_cond p h then zero_row shape T (Z (p ++ h)) else T) (fun h l => hit p h l)).
    intros h T1 Hh. unfold hit. destruct (out_cond p h); [|exists T1; split; reflexivity]. cbn [andb]. apply zero_row_spec.
    intros l Hl. apply nest0_spec in Hp, Hh. eapply proj1, Zb; [|exact Hl]. exists p, h. auto. }
  exists X. split; [exact E|].
  assert (HX : forall l, existsb (fun p => existsb (fun h => hit p h l) (nest [] (loops_of (nocc s) [] ps))) (nest [] (loops_of (nunocc s) [] ps)) = true
     <-> in_bounds shape l = true /\ distinct_in groups l /\ ~ in_active_p s n ps ps (map S l)).
  { intros l. rewrite existsb_exists. split.
    - intros (p & Hp & K). apply existsb_exists in K as (h & Hh & K). unfold hit in K. apply andb_true_iff in K as (K1 & K2).
      apply existsb_exists in K2 as (l' & K2 & K3). apply list_eqb_spec in K3. subst l'.
      apply nest0_spec in Hp, Hh. assert (Gr : Grow s ps ps (p ++ h)) by (exists p, h; auto).
      destruct (Zb _ _ Gr K2) as (B1 & B2). split; [exact B1|split; [exact B2|]].
      rewrite <- Cc by assumption. rewrite (Zc _ _ Gr K2). unfold in_active_p. rewrite cntp_spec, cnth_spec by apply Hp.
      unfold out_cond in K1. apply orb_true_iff in K1. rewrite !Nat.ltb_lt in K1. lia.
    - intros (B1 & B2 & NA). destruct (Cl l B1 B2) as ((p & h & Ec & Hp & Hh) & I). rewrite <- Cc in NA by assumption.
      rewrite Ec in *. exists p. split; [now apply nest0_spec|]. apply existsb_exists. exists h. split; [now apply nest0_spec|].
      unfold hit. apply andb_true_iff. split.
      + unfold in_active_p in NA. rewrite cntp_spec, cnth_spec in NA by apply Hp. unfold out_cond. apply orb_true_iff.
        rewrite !Nat.ltb_lt. lia.
      + apply existsb_exists. exists l. split; [exact I|]. now apply list_eqb_spec. }
  split.
  - intros l B1 B2. rewrite H. specialize (HX l). destruct (existsb _ _).
    + destruct (proj1 HX eq_refl) as (_ & _ & NA). split; tauto.
    + split; [reflexivity|]. intros NA. exfalso. assert (false = true) by (apply HX; auto). discriminate.
  - intros l B. rewrite H. specialize (HX l). destruct (existsb _ _); [|reflexivity].
    exfalso. destruct (proj1 HX eq_refl) as (B1 & B2 & _). destruct B; [congruence|tauto].
Qed.
End Zero.

Lemma c3 : forall size x a b c, a < b -> b < c -> c < size x -> ordered0 size [x; x; x] [a; b; c].
Proof.
  intros. split; [reflexivity|]. split; [intros [|[|[|p]]] Hp; cbn in *; lia|].
  intros [|[|[|p]]] [|[|[|q]]] Hp _; cbn in *; lia.
Qed.
Lemma c21 : forall size a b c, a < b -> b < size Alpha -> c < size Beta -> ordered0 size aab [a; b; c].
Proof.
  intros. split; [reflexivity|]. split; [intros [|[|[|p]]] Hp; cbn in *; lia|].
  intros [|[|[|p]]] [|[|[|q]]] Hp E; cbn in *; try lia; discriminate.
Qed.
Lemma c12 : forall size a b c, a < size Alpha -> b < c -> c < size Beta -> ordered0 size abb [a; b; c].
Proof.
  intros. split; [reflexivity|]. split; [intros [|[|[|p]]] Hp; cbn in *; lia|].
  intros [|[|[|p]]] [|[|[|q]]] Hp E; cbn in *; try lia; discriminate.
Qed.

Lemma in_bounds_len : forall shape l, in_bounds shape l = true -> length l = length shape.
Proof.
  induction shape; intros [|x l] H; cbn in *; try discriminate; [reflexivity|]. apply andb_true_iff in H as (_ & H). f_equal. auto.
Qed.
Lemma ib_cons : forall n sh x r, in_bounds (n :: sh) (x :: r) = true <-> x < n /\ in_bounds sh r = true.
Proof. intros. cbn [in_bounds]. rewrite andb_true_iff, Nat.ltb_lt. tauto. Qed.
Ltac open_bounds H := repeat (apply ib_cons in H; let B := fresh "B" in destruct H as [B H]); clear H.

Ltac distinct_fact D g p q := let F := fresh "F" in pose proof (D g p q ltac:(cbn; tauto) ltac:(cbn; tauto) ltac:(cbn; tauto) ltac:(lia)) as F; cbn [nth] in F.
Lemma distinct_aaa : forall a b c i j k, distinct_in g_aaa [a; b; c; i; j; k] <->
  a <> b /\ a <> c /\ b <> c /\ i <> j /\ i <> k /\ j <> k.
Proof.
  intros. split.
  - intros D. distinct_fact D [0; 1; 2] 0 1. distinct_fact D [0; 1; 2] 0 2. distinct_fact D [0; 1; 2] 1 2.
    distinct_fact D [3; 4; 5] 3 4. distinct_fact D [3; 4; 5] 3 5. distinct_fact D [3; 4; 5] 4 5. tauto.
  - intros D g p q Hg Hp Hq N. pick Hg; pick Hp; pick Hq; cbn [nth]; lia.
Qed.
Lemma distinct_aab : forall a b c i j k, distinct_in g_aab [a; b; c; i; j; k] <-> a <> b /\ i <> j.
Proof.
  intros. split.
  - intros D. distinct_fact D [0; 1] 0 1. distinct_fact D [3; 4] 3 4. tauto.
  - intros D g p q Hg Hp Hq N. pick Hg; pick Hp; pick Hq; cbn [nth]; lia.
Qed.
Lemma distinct_abb : forall a b c i j k, distinct_in g_abb [a; b; c; i; j; k] <-> b <> c /\ j <> k.
Proof.
  intros. split.
  - intros D. distinct_fact D [1; 2] 1 2. distinct_fact D [4; 5] 4 5. tauto.
  - intros D g p q Hg Hp Hq N. pick Hg; pick Hp; pick Hq; cbn [nth]; lia.
Qed.

Lemma sort3_cases : forall (P : list nat -> Prop) x y z, x <> y -> x <> z -> y <> z ->
  (x < y < z -> P [x; y; z]) -> (x < z < y -> P [x; z; y]) -> (z < x < y -> P [z; x; y]) ->
  (y < x < z -> P [y; x; z]) -> (y < z < x -> P [y; z; x]) -> (z < y < x -> P [z; y; x]) -> P (sort3 x y z).
Proof. intros. unfold sort3. destruct (Nat.leb_spec x y), (Nat.leb_spec y z), (Nat.leb_spec x z); auto with arith; try lia;
  match goal with H : _ -> P ?l |- P ?l => apply H; lia end. Qed.
Lemma sort2_cases : forall (P : list nat -> Prop) x y, x <> y -> (x < y -> P [x; y]) -> (y < x -> P [y; x]) -> P (sort2 x y).
Proof. intros. unfold sort2. destruct (Nat.leb_spec x y); match goal with H : _ -> P ?l |- P ?l => apply H; lia end. Qed.

Ltac zpick H := repeat (destruct H as [<-|H]); [..|destruct H].
Ltac zdelta := cbv beta iota delta [z_aaa z_aab z_abb z_bbb].

Lemma z_aaa_b : forall s r l, Grow s aaa aaa r -> In l (z_aaa r) -> in_bounds (shape_aaa s) l = true /\ distinct_in g_aaa l.
Proof.
  intros s r l HG H. open_row HG. revert H. zdelta. intros H. order_rules.
  zpick H; (split; [cbv beta iota delta [shape_aaa]; cbn [in_bounds]; use_rules; reflexivity|apply distinct_aaa; lia]).
Qed.
Lemma z_aaa_c : forall s r l, Grow s aaa aaa r -> In l (z_aaa r) -> canon_aaa l = r.
Proof.
  intros s r l HG H. open_row HG. revert H. zdelta. intros H. order_rules.
  zpick H; cbv beta iota delta [canon_aaa sort3]; use_rules; reflexivity.
Qed.
Lemma z_aaa_l : forall s l, in_bounds (shape_aaa s) l = true -> distinct_in g_aaa l ->
  Grow s aaa aaa (canon_aaa l) /\ In l (z_aaa (canon_aaa l)).
Proof.
  intros s l B D. pose proof (in_bounds_len _ _ B) as L. cbn in L. open_len l L. apply distinct_aaa in D.
  unfold shape_aaa in B. open_bounds B. cbn [canon_aaa]. destruct D as (D1 & D2 & D3 & D4 & D5 & D6).
  apply sort3_cases; try assumption; intros; (apply sort3_cases; try assumption; intros;
  (split; [match goal with |- Grow _ _ _ (?p ++ ?h) => exists p, h; split; [reflexivity|split; apply c3; cbn; lia] end|cbn [app]; zdelta; find_in])).
Qed.
Lemma cnt_aaa : forall s n x y z i j k, in_active_p s n aaa aaa (map S [x; y; z; i; j; k]) <->
  n <= active_particle x (nactu_a s) + active_particle y (nactu_a s) + active_particle z (nactu_a s) /\
  n <= active_hole i (no_a s) (nacto_a s) + active_hole j (no_a s) (nacto_a s) + active_hole k (no_a s) (nacto_a s).
Proof.
  intros. change [x; y; z; i; j; k] with ([x; y; z] ++ [i; j; k]). unfold in_active_p.
  rewrite cntp_spec, cnth_spec by reflexivity. unfold aaa. norm_counts. lia.
Qed.
Lemma z_aaa_cnt : forall s n l, in_bounds (shape_aaa s) l = true -> distinct_in g_aaa l ->
  (in_active_p s n aaa aaa (map S (canon_aaa l)) <-> in_active_p s n aaa aaa (map S l)).
Proof.
  intros s n l B D. pose proof (in_bounds_len _ _ B) as L. cbn in L. open_len l L. apply distinct_aaa in D.
  cbn [canon_aaa]. destruct D as (D1 & D2 & D3 & D4 & D5 & D6).
  apply sort3_cases; try assumption; intros; (apply sort3_cases; try assumption; intros; cbn [app]; rewrite !cnt_aaa; lia).
Qed.

Lemma z_bbb_b : forall s r l, Grow s bbb bbb r -> In l (z_bbb r) -> in_bounds (shape_bbb s) l = true /\ distinct_in g_aaa l.
Proof.
  intros s r l HG H. open_row HG. revert H. zdelta. intros H. order_rules.
  zpick H; (split; [cbv beta iota delta [shape_bbb]; cbn [in_bounds]; use_rules; reflexivity|apply distinct_aaa; lia]).
Qed.
Lemma z_bbb_c : forall s r l, Grow s bbb bbb r -> In l (z_bbb r) -> canon_aaa l = r.
Proof.
  intros s r l HG H. open_row HG. revert H. zdelta. intros H. order_rules.
  zpick H; cbv beta iota delta [canon_aaa sort3]; use_rules; reflexivity.
Qed.
Lemma z_bbb_l : forall s l, in_bounds (shape_bbb s) l = true -> distinct_in g_aaa l ->
  Grow s bbb bbb (canon_aaa l) /\ In l (z_bbb (canon_aaa l)).
Proof.
  intros s l B D. pose proof (in_bounds_len _ _ B) as L. cbn in L. open_len l L. apply distinct_aaa in D.
  unfold shape_bbb in B. open_bounds B. cbn [canon_aaa]. destruct D as (D1 & D2 & D3 & D4 & D5 & D6).
  apply sort3_cases; try assumption; intros; (apply sort3_cases; try assumption; intros;
  (split; [match goal with |- Grow _ _ _ (?p ++ ?h) => exists p, h; split; [reflexivity|split; apply c3; cbn; lia] end|cbn [app]; zdelta; find_in])).
Qed.
Lemma cnt_bbb : forall s n x y z i j k, in_active_p s n bbb bbb (map S [x; y; z; i; j; k]) <->
  n <= active_particle x (nactu_b s) + active_particle y (nactu_b s) + active_particle z (nactu_b s) /\
  n <= active_hole i (no_b s) (nacto_b s) + active_hole j (no_b s) (nacto_b s) + active_hole k (no_b s) (nacto_b s).
Proof.
  intros. change [x; y; z; i; j; k] with ([x; y; z] ++ [i; j; k]). unfold in_active_p.
  rewrite cntp_spec, cnth_spec by reflexivity. unfold bbb. norm_counts. lia.
Qed.
Lemma z_bbb_cnt : forall s n l, in_bounds (shape_bbb s) l = true -> distinct_in g_aaa l ->
  (in_active_p s n bbb bbb (map S (canon_aaa l)) <-> in_active_p s n bbb bbb (map S l)).
Proof.
  intros s n l B D. pose proof (in_bounds_len _ _ B) as L. cbn in L. open_len l L. apply distinct_aaa in D.
  cbn [canon_aaa]. destruct D as (D1 & D2 & D3 & D4 & D5 & D6).
  apply sort3_cases; try assumption; intros; (apply sort3_cases; try assumption; intros; cbn [app]; rewrite !cnt_bbb; lia).
Qed.

Lemma z_aab_b : forall s r l, Grow s aab aab r -> In l (z_aab r) -> in_bounds (shape_aab s) l = true /\ distinct_in g_aab l.
Proof.
  intros s r l HG H. open_row HG. revert H. zdelta. intros H. order_rules.
  zpick H; (split; [cbv beta iota delta [shape_aab]; cbn [in_bounds]; use_rules; reflexivity|apply distinct_aab; lia]).
Qed.
Lemma z_aab_c : forall s r l, Grow s aab aab r -> In l (z_aab r) -> canon_aab l = r.
Proof.
  intros s r l HG H. open_row HG. revert H. zdelta. intros H. order_rules.
  zpick H; cbv beta iota delta [canon_aab sort2]; use_rules; reflexivity.
Qed.
Lemma z_aab_l : forall s l, in_bounds (shape_aab s) l = true -> distinct_in g_aab l ->
  Grow s aab aab (canon_aab l) /\ In l (z_aab (canon_aab l)).
Proof.
  intros s l B D. pose proof (in_bounds_len _ _ B) as L. cbn in L. open_len l L. apply distinct_aab in D.
  unfold shape_aab in B. open_bounds B. cbn [canon_aab]. destruct D as (D1 & D2).
  apply sort2_cases; try assumption; intros; (apply sort2_cases; try assumption; intros;
  (split; [match goal with |- Grow _ _ _ ([?a; ?b] ++ [?c] ++ [?i; ?j] ++ [?k]) => exists [a; b; c], [i; j; k]; split; [reflexivity|split; apply c21; cbn; lia] end|cbn [app]; zdelta; find_in])).
Qed.
Lemma cnt_aab : forall s n x y z i j k, in_active_p s n aab aab (map S [x; y; z; i; j; k]) <->
  n <= active_particle x (nactu_a s) + active_particle y (nactu_a s) + active_particle z (nactu_b s) /\
  n <= active_hole i (no_a s) (nacto_a s) + active_hole j (no_a s) (nacto_a s) + active_hole k (no_b s) (nacto_b s).
Proof.
  intros. change [x; y; z; i; j; k] with ([x; y; z] ++ [i; j; k]). unfold in_active_p.
  rewrite cntp_spec, cnth_spec by reflexivity. unfold aab. norm_counts. lia.
Qed.
Lemma z_aab_cnt : forall s n l, in_bounds (shape_aab s) l = true -> distinct_in g_aab l ->
  (in_active_p s n aab aab (map S (canon_aab l)) <-> in_active_p s n aab aab (map S l)).
Proof.
  intros s n l B D. pose proof (in_bounds_len _ _ B) as L. cbn in L. open_len l L. apply distinct_aab in D.
  cbn [canon_aab]. destruct D as (D1 & D2).
  apply sort2_cases; try assumption; intros; (apply sort2_cases; try assumption; intros; cbn [app]; rewrite !cnt_aab; lia).
Qed.

Lemma z_abb_b : forall s r l, Grow s abb abb r -> In l (z_abb r) -> in_bounds (shape_abb s) l = true /\ distinct_in g_abb l.
Proof.
  intros s r l HG H. open_row HG. revert H. zdelta. intros H. order_rules.
  zpick H; (split; [cbv beta iota delta [shape_abb]; cbn [in_bounds]; use_rules; reflexivity|apply distinct_abb; lia]).
Qed.
Lemma z_abb_c : forall s r l, Grow s abb abb r -> In l (z_abb r) -> canon_abb l = r.
Proof.
  intros s r l HG H. open_row HG. revert H. zdelta. intros H. order_rules.
  zpick H; cbv beta iota delta [canon_abb sort2]; use_rules; reflexivity.
Qed.
Lemma z_abb_l : forall s l, in_bounds (shape_abb s) l = true -> distinct_in g_abb l ->
  Grow s abb abb (canon_abb l) /\ In l (z_abb (canon_abb l)).
Proof.
  intros s l B D. pose proof (in_bounds_len _ _ B) as L. cbn in L. open_len l L. apply distinct_abb in D.
  unfold shape_abb in B. open_bounds B. cbn [canon_abb]. destruct D as (D1 & D2).
  apply sort2_cases; try assumption; intros; (apply sort2_cases; try assumption; intros;
  (split; [match goal with |- Grow _ _ _ ([?a] ++ [?b; ?c] ++ [?i] ++ [?j; ?k]) => exists [a; b; c], [i; j; k]; split; [reflexivity|split; apply c12; cbn; lia] end|cbn [app]; zdelta; find_in])).
Qed.
Lemma cnt_abb : forall s n x y z i j k, in_active_p s n abb abb (map S [x; y; z; i; j; k]) <->
  n <= active_particle x (nactu_a s) + active_particle y (nactu_b s) + active_particle z (nactu_b s) /\
  n <= active_hole i (no_a s) (nacto_a s) + active_hole j (no_b s) (nacto_b s) + active_hole k (no_b s) (nacto_b s).
Proof.
  intros. change [x; y; z; i; j; k] with ([x; y; z] ++ [i; j; k]). unfold in_active_p.
  rewrite cntp_spec, cnth_spec by reflexivity. unfold abb. norm_counts. lia.
Qed.
Lemma z_abb_cnt : forall s n l, in_bounds (shape_abb s) l = true -> distinct_in g_abb l ->
  (in_active_p s n abb abb (map S (canon_abb l)) <-> in_active_p s n abb abb (map S l)).
Proof.
  intros s n l B D. pose proof (in_bounds_len _ _ B) as L. cbn in L. open_len l L. apply distinct_abb in D.
  cbn [canon_abb]. destruct D as (D1 & D2).
  apply sort2_cases; try assumption; intros; (apply sort2_cases; try assumption; intros; cbn [app]; rewrite !cnt_abb; lia).
Qed.

Lemma zero_aaa_spec : forall s n T, exists X, zero_t3aaa s n T = Some X /\ zeroes_outside s n aaa g_aaa (shape_aaa s) T X.
Proof.
  intros s n T. destruct (zero_generic s n aaa g_aaa (shape_aaa s) z_aaa canon_aaa (z_aaa_b s) (z_aaa_c s) (z_aaa_l s) (z_aaa_cnt s n) T)
    as (X & E & H). exists X. split; [|exact H]. rewrite <- E. unfold zero_t3aaa.
  apply fold_left_ext_in. intros T0 p Hp. apply nest_prefix in Hp as (_ & Hp). cbn in Hp. open_list Hp.
  apply fold_left_ext_in. intros T1 h Hh. apply nest_prefix in Hh as (_ & Hh). cbn in Hh. open_list Hh.
  cbv zeta. unfold out_cond, aaa. repeat (rewrite cntp_cons || rewrite cnth_cons). rewrite cntp_nil, cnth_nil.
  cbn [nocc nact_occ nact_unocc]. rewrite !Nat.add_0_r, !Nat.add_assoc. reflexivity.
Qed.
Lemma swap_aaa : forall s n l g p q, length l = 6 -> In g g_aaa -> In p g -> In q g -> p <> q ->
  in_bounds (shape_aaa s) (swap p q l) = in_bounds (shape_aaa s) l /\
  (distinct_in g_aaa (swap p q l) <-> distinct_in g_aaa l) /\
  (in_active_p s n aaa aaa (map S (swap p q l)) <-> in_active_p s n aaa aaa (map S l)).
Proof.
  intros s n l g p q Ll Hg Hp Hq N. open_len l Ll. pick Hg; pick Hp; pick Hq; try (exfalso; apply N; reflexivity);
  match goal with |- context [swap ?p ?q ?l] => let r := eval cbv in (swap p q l) in change (swap p q l) with r end;
  (split; [|split; [rewrite !distinct_aaa; lia|rewrite !cnt_aaa; lia]]).
  all: apply Bool.eq_true_iff_eq; unfold shape_aaa; rewrite !ib_cons; tauto.
Qed.

Lemma zero_aab_spec : forall s n T, exists X, zero_t3aab s n T = Some X /\ zeroes_outside s n aab g_aab (shape_aab s) T X.
Proof.
  intros s n T. destruct (zero_generic s n aab g_aab (shape_aab s) z_aab canon_aab (z_aab_b s) (z_aab_c s) (z_aab_l s) (z_aab_cnt s n) T)
    as (X & E & H). exists X. split; [|exact H]. rewrite <- E. unfold zero_t3aab.
  apply fold_left_ext_in. intros T0 p Hp. apply nest_prefix in Hp as (_ & Hp). cbn in Hp. open_list Hp.
  apply fold_left_ext_in. intros T1 h Hh. apply nest_prefix in Hh as (_ & Hh). cbn in Hh. open_list Hh.
  cbv zeta. unfold out_cond, aab. repeat (rewrite cntp_cons || rewrite cnth_cons). rewrite cntp_nil, cnth_nil.
  cbn [nocc nact_occ nact_unocc]. rewrite !Nat.add_0_r, !Nat.add_assoc. reflexivity.
Qed.
Lemma swap_aab : forall s n l g p q, length l = 6 -> In g g_aab -> In p g -> In q g -> p <> q ->
  in_bounds (shape_aab s) (swap p q l) = in_bounds (shape_aab s) l /\
  (distinct_in g_aab (swap p q l) <-> distinct_in g_aab l) /\
  (in_active_p s n aab aab (map S (swap p q l)) <-> in_active_p s n aab aab (map S l)).
Proof.
  intros s n l g p q Ll Hg Hp Hq N. open_len l Ll. pick Hg; pick Hp; pick Hq; try (exfalso; apply N; reflexivity);
  match goal with |- context [swap ?p ?q ?l] => let r := eval cbv in (swap p q l) in change (swap p q l) with r end;
  (split; [|split; [rewrite !distinct_aab; lia|rewrite !cnt_aab; lia]]).
  all: apply Bool.eq_true_iff_eq; unfold shape_aab; rewrite !ib_cons; tauto.
Qed.

Lemma zero_abb_spec : forall s n T, exists X, zero_t3abb s n T = Some X /\ zeroes_outside s n abb g_abb (shape_abb s) T X.
Proof.
  intros s n T. destruct (zero_generic s n abb g_abb (shape_abb s) z_abb canon_abb (z_abb_b s) (z_abb_c s) (z_abb_l s) (z_abb_cnt s n) T)
    as (X & E & H). exists X. split; [|exact H]. rewrite <- E. unfold zero_t3abb.
  apply fold_left_ext_in. intros T0 p Hp. apply nest_prefix in Hp as (_ & Hp). cbn in Hp. open_list Hp.
  apply fold_left_ext_in. intros T1 h Hh. apply nest_prefix in Hh as (_ & Hh). cbn in Hh. open_list Hh.
  cbv zeta. unfold out_cond, abb. repeat (rewrite cntp_cons || rewrite cnth_cons). rewrite cntp_nil, cnth_nil.
  cbn [nocc nact_occ nact_unocc]. rewrite !Nat.add_0_r, !Nat.add_assoc. reflexivity.
Qed.
Lemma swap_abb : forall s n l g p q, length l = 6 -> In g g_abb -> In p g -> In q g -> p <> q ->
  in_bounds (shape_abb s) (swap p q l) = in_bounds (shape_abb s) l /\
  (distinct_in g_abb (swap p q l) <-> distinct_in g_abb l) /\
  (in_active_p s n abb abb (map S (swap p q l)) <-> in_active_p s n abb abb (map S l)).
Proof.
  intros s n l g p q Ll Hg Hp Hq N. open_len l Ll. pick Hg; pick Hp; pick Hq; try (exfalso; apply N; reflexivity);
  match goal with |- context [swap ?p ?q ?l] => let r := eval cbv in (swap p q l) in change (swap p q l) with r end;
  (split; [|split; [rewrite !distinct_abb; lia|rewrite !cnt_abb; lia]]).
  all: apply Bool.eq_true_iff_eq; unfold shape_abb; rewrite !ib_cons; tauto.
Qed.

Lemma zero_bbb_spec : forall s n T, exists X, zero_t3bbb s n T = Some X /\ zeroes_outside s n bbb g_aaa (shape_bbb s) T X.
Proof.
  intros s n T. destruct (zero_generic s n bbb g_aaa (shape_bbb s) z_bbb canon_aaa (z_bbb_b s) (z_bbb_c s) (z_bbb_l s) (z_bbb_cnt s n) T)
    as (X & E & H). exists X. split; [|exact H]. rewrite <- E. unfold zero_t3bbb.
  apply fold_left_ext_in. intros T0 p Hp. apply nest_prefix in Hp as (_ & Hp). cbn in Hp. open_list Hp.
  apply fold_left_ext_in. intros T1 h Hh. apply nest_prefix in Hh as (_ & Hh). cbn in Hh. open_list Hh.
  cbv zeta. unfold out_cond, bbb. repeat (rewrite cntp_cons || rewrite cnth_cons). rewrite cntp_nil, cnth_nil.
  cbn [nocc nact_occ nact_unocc]. rewrite !Nat.add_0_r, !Nat.add_assoc. reflexivity.
Qed.
Lemma swap_bbb : forall s n l g p q, length l = 6 -> In g g_aaa -> In p g -> In q g -> p <> q ->
  in_bounds (shape_bbb s) (swap p q l) = in_bounds (shape_bbb s) l /\
  (distinct_in g_aaa (swap p q l) <-> distinct_in g_aaa l) /\
  (in_active_p s n bbb bbb (map S (swap p q l)) <-> in_active_p s n bbb bbb (map S l)).
Proof.
  intros s n l g p q Ll Hg Hp Hq N. open_len l Ll. pick Hg; pick Hp; pick Hq; try (exfalso; apply N; reflexivity);
  match goal with |- context [swap ?p ?q ?l] => let r := eval cbv in (swap p q l) in change (swap p q l) with r end;
  (split; [|split; [rewrite !distinct_aaa; lia|rewrite !cnt_bbb; lia]]).
  all: apply Bool.eq_true_iff_eq; unfold shape_bbb; rewrite !ib_cons; tauto.
Qed.
