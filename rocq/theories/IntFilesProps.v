(** C30, C31 (FCIDUMP files) and C59 (dumped integral files). *)
From Coq Require Import ZArith List Bool Arith Lia.
From Verif Require Import IntFilesModel IntFilesSpec IntFilesProofs.
Import ListNotations.
Open Scope Z_scope.

(** A line (v i j k l) is a two-electron integral (ij|kl) when k and l are positive labels, a one-electron line when k = l = 0 and i is one. *)
Definition is_two {V} (l : line V) : bool := negb (l_3 V l =? 0) && negb (l_4 V l =? 0).
Definition is_one {V} (l : line V) : bool := (l_3 V l =? 0) && (l_4 V l =? 0) && negb (l_1 V l =? 0).
(** Labels of a line lie within 1..n; an orbital-energy line has 0 as second label. *)
Definition labels_ok {V} (n : Z) (l : line V) : Prop :=
  (is_two l = true -> 1 <= l_1 V l <= n /\ 1 <= l_2 V l <= n /\ 1 <= l_3 V l <= n /\ 1 <= l_4 V l <= n)
  /\ (is_one l = true -> 1 <= l_1 V l <= n /\ 0 <= l_2 V l <= n).

(** * C30 *)
(** Every file that loads gives a two-electron array with the full permutation symmetry of real orbitals (the three transpositions generate
    all eight) and a symmetric one-electron array. *)
Theorem C30_symmetry : forall V (zero : V) norb nfrozen ndelete ls h v nn,
  load_fcidump V zero norb nfrozen ndelete ls = Some (h, v, nn) ->
  (forall p q r s, v p q r s = v r q p s /\ v p q r s = v p s r q /\ v p q r s = v q p s r) /\ (forall p q, h p q = h q p).
Proof.
  intros V zero norb nf nd ls h v nn H. unfold load_fcidump in H. destruct (_ <? 0); [discriminate|].
  destruct (read_lines V zero _ ls) as [st|] eqn:E; [|discriminate]. destruct (enn V st) as [x|]; [|discriminate]. injection H as <- <- <-. split.
  - apply (read_ind V _ (fun st => inv8 V (e2 V st)) (fun st l st' => inv8_step V _ st l st') ls _ _) in E; [exact E|]. repeat split.
  - apply (read_ind V _ (fun st => sym2 V (e1 V st)) (fun st l st' => sym2_step V _ st l st') ls _ _) in E; [exact E|]. repeat split.
Qed.

Lemma resolve_end : forall n r, resolve n (0 - 1) = Some r -> Z.of_nat r + 1 = Z.of_nat n.
Proof.
  intros n r H. pose proof (resolve_lt _ _ _ H) as L. unfold resolve in H. set (x := 0 - 1) in *. assert (Hx : x = -1) by reflexivity. clearbody x.
  destruct (Z.leb_spec (- Z.of_nat n) x); [|discriminate]. destruct (Z.ltb_spec x (Z.of_nat n)); [|discriminate]. destruct (Z.ltb_spec x 0); [|lia].
  injection H as <-. lia.
Qed.
Lemma read_values : forall V n ls st st', (forall l, In l ls -> labels_ok (Z.of_nat n) l) ->
  fold_left (read_line V n) ls (Some st) = Some st' ->
  (forall p q r s, e2 V st' p q r s = last_such (fun l => is_two l &&
       same_integral (l_1 V l) (l_2 V l) (l_3 V l) (l_4 V l) (Z.of_nat p + 1) (Z.of_nat r + 1) (Z.of_nat q + 1) (Z.of_nat s + 1)) (l_val V) (e2 V st p q r s) ls)
  /\ (forall p q, e1 V st' p q = last_such (fun l => is_one l &&
       same_pair (l_1 V l) (if l_2 V l =? 0 then Z.of_nat n else l_2 V l) (Z.of_nat p + 1) (Z.of_nat q + 1)) (l_val V) (e1 V st p q) ls)
  /\ (enn V st' = last_such (fun l => negb (is_two l) && negb (is_one l)) (fun l => Some (l_val V l)) (enn V st) ls).
Proof.
  intros V n. induction ls as [|l ls IH]; intros st st' HL HR.
  - injection HR as <-. repeat split.
  - cbn [fold_left] in HR. destruct (read_line V n (Some st) l) as [s1|] eqn:E; [|rewrite fold_none in HR; discriminate].
    destruct (IH s1 st' (fun x Hx => HL x (or_intror Hx)) HR) as (I1 & I2 & I3). destruct (HL l (or_introl eq_refl)) as [L2 L1].
    assert (K : (forall p q r s, e2 V s1 p q r s = if is_two l && same_integral (l_1 V l) (l_2 V l) (l_3 V l) (l_4 V l) (Z.of_nat p + 1) (Z.of_nat r + 1) (Z.of_nat q + 1) (Z.of_nat s + 1) then l_val V l else e2 V st p q r s)
      /\ (forall p q, e1 V s1 p q = if is_one l && same_pair (l_1 V l) (if l_2 V l =? 0 then Z.of_nat n else l_2 V l) (Z.of_nat p + 1) (Z.of_nat q + 1) then l_val V l else e1 V st p q)
      /\ enn V s1 = if negb (is_two l) && negb (is_one l) then Some (l_val V l) else enn V st).
    { destruct (is_two l) eqn:HT.
      - assert (HO : is_one l = false) by (unfold is_two, is_one in *; destruct (l_3 V l =? 0); [discriminate|reflexivity]).
        destruct (two_case V n st l s1 HT E) as (p & q & r & s & Rp & Rq & Rr & Rs & E1 & En & B). destruct (L2 eq_refl) as (B1 & B2 & B3 & B4).
        rewrite HO, E1, En. cbn [andb negb]. split; [|split; reflexivity]. intros i j k o. rewrite B, memb_same.
        rewrite resolve_in in Rp, Rq, Rr, Rs by lia. injection Rp as <-. injection Rq as <-. injection Rr as <-. injection Rs as <-.
        rewrite !Z2Nat.id by lia. rewrite !Z.sub_add. reflexivity.
      - destruct (is_one l) eqn:HO.
        + destruct (one_case V n st l s1 HT HO E) as (p & r & Rp & Rr & E2 & En & B). destruct (L1 eq_refl) as (B1 & B2). rewrite E2, En. cbn [andb negb].
          split; [reflexivity|]. split; [|reflexivity]. intros i j. rewrite B. f_equal. rewrite resolve_in in Rp by lia. injection Rp as <-.
          assert (Hr : Z.of_nat r + 1 = if l_2 V l =? 0 then Z.of_nat n else l_2 V l).
          { destruct (Z.eqb_spec (l_2 V l) 0) as [Z0|Z0].
            - rewrite Z0 in Rr. apply resolve_end in Rr. lia.
            - rewrite resolve_in in Rr by lia. injection Rr as <-. lia. }
          rewrite <- Hr. unfold same_pair.
          assert (EQ : forall a b : nat, (Z.of_nat a + 1 =? Z.of_nat b + 1) = (b =? a)%nat) by (intros a b; destruct (Z.eqb_spec (Z.of_nat a + 1) (Z.of_nat b + 1)), (Nat.eqb_spec b a); lia).
          assert (EP : forall b : nat, (l_1 V l =? Z.of_nat b + 1) = (b =? Z.to_nat (l_1 V l - 1))%nat).
          { intros b. destruct (Z.eqb_spec (l_1 V l) (Z.of_nat b + 1)), (Nat.eqb_spec b (Z.to_nat (l_1 V l - 1))); lia. }
          rewrite !EQ, !EP. rewrite (andb_comm (i =? r)%nat). reflexivity.
        + destruct (other_case V n st l s1 HT HO E) as (-> & -> & ->). cbn [andb negb]. split; [reflexivity|]. split; reflexivity. }
    destruct K as (K1 & K2 & K3). cbn [last_such]. split; [|split].
    + intros p q r s. rewrite I1, K1. reflexivity.
    + intros p q. rewrite I2, K2. reflexivity.
    + rewrite I3, K3. reflexivity.
Qed.

(** The element <pq|rs> (labels p+1, ...) is the value of the last line listing any of the eight equivalent forms of (pr|qs), 0 if there is none. *)
Theorem C30_values : forall V (zero : V) norb nfrozen ls h v nn, 0 <= norb ->
  (forall l, In l ls -> labels_ok norb l) -> load_fcidump V zero norb nfrozen 0 ls = Some (h, v, nn) ->
  forall p q r s, v p q r s = last_such (fun l => is_two l &&
     same_integral (l_1 V l) (l_2 V l) (l_3 V l) (l_4 V l) (Z.of_nat p + 1) (Z.of_nat r + 1) (Z.of_nat q + 1) (Z.of_nat s + 1)) (l_val V) zero ls.
Proof.
  intros V zero norb nf ls h v nn Hn HL H. unfold load_fcidump, fcidump_norb, sys_norbitals in H.
  replace (norb - nf - 0 + nf - 0) with norb in H by lia. destruct (Z.ltb_spec norb 0); [lia|].
  destruct (read_lines V zero (Z.to_nat norb) ls) as [st|] eqn:E; [|discriminate]. destruct (enn V st) as [x|]; [|discriminate]. injection H as <- <- <-.
  apply read_values in E; [|intros l Hl; rewrite Z2Nat.id by lia; apply HL; exact Hl]. exact (proj1 E).
Qed.
(** Files with labels in range and a nuclear-repulsion line do load. *)
Theorem C30_loads : forall V (zero : V) norb nfrozen ls, 0 <= norb -> (forall l, In l ls -> labels_ok norb l) ->
  (exists l, In l ls /\ is_two l = false /\ is_one l = false) -> exists h v nn, load_fcidump V zero norb nfrozen 0 ls = Some (h, v, nn).
Proof.
  intros V zero norb nf ls Hn HL HE. unfold load_fcidump, fcidump_norb, sys_norbitals.
  replace (norb - nf - 0 + nf - 0) with norb by lia. destruct (Z.ltb_spec norb 0); [lia|].
  assert (HL' : forall l, In l ls -> labels_ok (Z.of_nat (Z.to_nat norb)) l) by (intros l Hl; rewrite Z2Nat.id by lia; apply HL; exact Hl).
  assert (G : forall ls st, (forall l, In l ls -> labels_ok (Z.of_nat (Z.to_nat norb)) l) -> exists st', fold_left (read_line V (Z.to_nat norb)) ls (Some st) = Some st').
  { clear. set (n := Z.to_nat norb). induction ls as [|l ls IH]; intros st HL; [exists st; reflexivity|]. cbn [fold_left].
    destruct (HL l (or_introl eq_refl)) as [L2 L1].
    assert (exists s1, read_line V n (Some st) l = Some s1) as [s1 ->]; [|apply IH; intros x Hx; apply HL; right; exact Hx].
    rewrite read_line_eq. change (two_electron V l) with (is_two l). change (one_electron V l) with (is_one l).
    destruct (is_two l).
    - destruct (L2 eq_refl) as (B1 & B2 & B3 & B4).
      destruct (write4_ok V n (l_val V l) (images (l_1 V l - 1) (l_3 V l - 1) (l_2 V l - 1) (l_4 V l - 1)) (e2 V st)) as [b ->]; [|eexists; reflexivity].
      unfold images. repeat constructor; lia.
    - destruct (is_one l); [|eexists; reflexivity]. destruct (L1 eq_refl) as (B1 & B2). cbn [fold_left]. unfold write2. cbn [fst snd].
      rewrite (resolve_in n (l_1 V l - 1)) by lia. destruct (Z.eqb_spec (l_2 V l) 0) as [Z0|Z0].
      + rewrite Z0. unfold resolve. destruct (Z.leb_spec (- Z.of_nat n) (0 - 1)); [|lia]. destruct (Z.ltb_spec (0 - 1) (Z.of_nat n)); [|lia]. cbn. eexists; reflexivity.
      + rewrite resolve_in by lia. eexists; reflexivity. }
  unfold read_lines. destruct (G ls (empty_ints V zero) HL') as [st E]. rewrite E.
  destruct (read_values V _ ls _ _ HL' E) as (_ & _ & EN). cbn [enn empty_ints] in EN.
  assert (K : forall ls d, ((exists v, d = Some v) \/ exists l : line V, In l ls /\ is_two l = false /\ is_one l = false) ->
     exists v, last_such (fun l => negb (is_two l) && negb (is_one l)) (fun l => Some (l_val V l)) d ls = Some v).
  { clear. induction ls as [|l ls IH]; intros d H; cbn [last_such].
    - destruct H as [H|[x [[] _]]]. exact H.
    - apply IH. destruct H as [[v ->]|[x [[<-|Hx] [H1 H2]]]].
      + left. destruct (negb (is_two l) && negb (is_one l)); eauto.
      + left. rewrite H1, H2. cbn. eauto.
      + right. exists x. auto. }
  destruct (K ls None (or_intror HE)) as [nn Hnn]. rewrite EN, Hnn. eauto.
Qed.

(** * C31 *)
(** With ndelete > 0 the arrays have norb - 2 ndelete rows: any file that mentions a higher label, as every complete file does, is an IndexError. *)
Theorem C31_deleted_orbitals_refuted : forall V (zero : V) norb nfrozen ndelete ls l,
  0 <= norb - 2 * ndelete -> In l ls ->
  (is_two l = true /\ (norb - 2 * ndelete < l_1 V l \/ norb - 2 * ndelete < l_2 V l \/ norb - 2 * ndelete < l_3 V l \/ norb - 2 * ndelete < l_4 V l)
   \/ is_one l = true /\ (norb - 2 * ndelete < l_1 V l \/ norb - 2 * ndelete < l_2 V l)) ->
  load_fcidump V zero norb nfrozen ndelete ls = None.
Proof.
  intros V zero norb nf nd ls l Hn Hl HB. unfold load_fcidump, fcidump_norb, sys_norbitals.
  replace (norb - nf - nd + nf - nd) with (norb - 2 * nd) by lia. destruct (Z.ltb_spec (norb - 2 * nd) 0); [lia|].
  set (n := Z.to_nat (norb - 2 * nd)). assert (En : Z.of_nat n = norb - 2 * nd) by (unfold n; lia).
  assert (HX : forall st, read_line V n st l = None).
  { intros [st|]; [|reflexivity]. rewrite read_line_eq. change (two_electron V l) with (is_two l). change (one_electron V l) with (is_one l).
    destruct HB as [[HT HB]|[HO HB]].
    - rewrite HT. rewrite (write4_bad V n (l_val V l) _ _ (l_1 V l - 1) (l_3 V l - 1) (l_2 V l - 1) (l_4 V l - 1)); [reflexivity|left; reflexivity|].
      destruct HB as [HB|[HB|[HB|HB]]]; [left|right; right; left|right; left|right; right; right]; apply resolve_out; lia.
    - assert (HT : is_two l = false) by (unfold is_two, is_one in *; destruct (l_3 V l =? 0); [reflexivity|discriminate]). rewrite HT, HO. cbn [fold_left].
      unfold write2. cbn [fst snd]. destruct HB as [HB|HB]; [rewrite (resolve_out n (l_1 V l - 1)) by lia; reflexivity|]. rewrite (resolve_out n (l_2 V l - 1)) by lia. destruct (resolve n (l_1 V l - 1)); reflexivity. }
  assert (G : read_lines V zero n ls = None).
  { unfold read_lines. apply in_split in Hl. destruct Hl as (a & b & ->). rewrite fold_left_app. cbn [fold_left]. rewrite HX. apply fold_none. }
  rewrite G. reflexivity.
Qed.
(** What the one-electron array holds: orbital-energy lines (v i 0 0 0) count as entries (i, norb). *)
Theorem C31_one_electron : forall V (zero : V) norb nfrozen ls h v nn, 0 <= norb ->
  (forall l, In l ls -> labels_ok norb l) -> load_fcidump V zero norb nfrozen 0 ls = Some (h, v, nn) ->
  forall p q, h p q = last_such (fun l => is_one l && same_pair (l_1 V l) (if l_2 V l =? 0 then norb else l_2 V l) (Z.of_nat p + 1) (Z.of_nat q + 1)) (l_val V) zero ls.
Proof.
  intros V zero norb nf ls h v nn Hn HL H. unfold load_fcidump, fcidump_norb, sys_norbitals in H.
  replace (norb - nf - 0 + nf - 0) with norb in H by lia. destruct (Z.ltb_spec norb 0); [lia|].
  destruct (read_lines V zero (Z.to_nat norb) ls) as [st|] eqn:E; [|discriminate]. destruct (enn V st) as [x|]; [|discriminate]. injection H as <- <- <-.
  apply read_values in E; [|intros l Hl; rewrite Z2Nat.id by lia; apply HL; exact Hl]. destruct E as (_ & E & _). intros p q. rewrite E, Z2Nat.id by lia. reflexivity.
Qed.
(** So a file that ends with orbital energies does not give back the one-electron integrals it lists. *)
Definition dump_with_energies : list (line Z) :=
  [mkLine Z 7 1 1 1 1; mkLine Z 5 1 1 0 0; mkLine Z 3 2 1 0 0; mkLine Z 4 2 2 0 0; mkLine Z 9 1 0 0 0; mkLine Z 8 2 0 0 0; mkLine Z 1 0 0 0 0].
Theorem C31_orbital_energy_refuted : exists ls h v nn, (forall l, In l ls -> labels_ok 2 l) /\ load_fcidump Z 0 2 0 0 ls = Some (h, v, nn)
  /\ In (mkLine Z 3 2 1 0 0) ls /\ (forall l, In l ls -> l_1 Z l = 2 -> l_2 Z l = 1 -> l_3 Z l = 0 -> l_val Z l = 3) /\ h 1%nat 0%nat = 9.
Proof.
  assert (HL : forall l, In l dump_with_energies -> labels_ok 2 l).
  { intros l Hl. unfold dump_with_energies in Hl. cbn in Hl. unfold labels_ok, is_two, is_one.
    repeat (destruct Hl as [<-|Hl]; [cbn; split; intros; try discriminate; lia|]). contradiction. }
  destruct (C30_loads Z 0 2 0 dump_with_energies ltac:(lia) HL) as (h & v & nn & E).
  { exists (mkLine Z 1 0 0 0 0). split; [cbn; tauto|split; reflexivity]. }
  exists dump_with_energies, h, v, nn. split; [exact HL|]. split; [exact E|]. split; [cbn; tauto|]. split.
  - intros l Hl. cbn in Hl. repeat (destruct Hl as [<-|Hl]; [cbn; intros; lia|]). contradiction.
  - rewrite (C31_one_electron Z 0 2 0 dump_with_energies h v nn ltac:(lia) HL E). reflexivity.
Qed.

(** * C59 *)
(** onebody.inp: what is read back is the (rounded) lower triangle, mirrored. *)
Theorem C59_onebody : forall V (zero : V) rnd n a,
  exists b, load_onebody V zero n (dump_onebody V rnd n a) = Some b
    /\ forall p q, (p < n)%nat -> (q < n)%nat -> b p q = rnd (a (Nat.max p q) (Nat.min p q)).
Proof.
  intros V zero rnd n a. unfold load_onebody, dump_onebody.
  set (g := fun ij : nat * nat => rnd (a (fst ij) (snd ij))).
  set (lines := map g (lower_triangle n)).
  match goal with |- context [fold_left ?F0 _ _] => set (F := F0) end.
  assert (G : forall L b0 ct, (forall i, (i < length L)%nat -> nth_error lines (ct + i) = nth_error (map g L) i) -> (forall ij, In ij L -> (snd ij <= fst ij)%nat) ->
     exists b, fold_left F L (Some (b0, ct)) = Some (b, (ct + length L)%nat)
       /\ forall p q, b p q = if existsb (fun ij => ((fst ij =? Nat.max p q) && (snd ij =? Nat.min p q))%nat) L then g (Nat.max p q, Nat.min p q) else b0 p q).
  { induction L as [|[i j] L IH]; intros b0 ct HN HO.
    - exists b0. split; [cbn; rewrite Nat.add_0_r; reflexivity|reflexivity].
    - cbn [fold_left]. assert (E : F (Some (b0, ct)) (i, j) = Some (set2 V (set2 V b0 i j (g (i, j))) j i (g (i, j)), S ct)).
      { unfold F. specialize (HN 0%nat ltac:(cbn; lia)). rewrite Nat.add_0_r in HN. rewrite HN. reflexivity. }
      rewrite E. destruct (IH (set2 V (set2 V b0 i j (g (i, j))) j i (g (i, j))) (S ct)) as [b [Eb Vb]].
      + intros k Hk. specialize (HN (S k) ltac:(cbn; lia)). rewrite Nat.add_succ_r in HN. exact HN.
      + intros ij Hij. apply HO. right. exact Hij.
      + exists b. split; [rewrite Eb; cbn [length]; f_equal; f_equal; lia|]. intros p q. rewrite Vb. cbn [existsb fst snd].
        specialize (HO (i, j) (or_introl eq_refl)). cbn in HO.
        destruct (existsb _ L); [rewrite orb_true_r; reflexivity|]. rewrite orb_false_r. unfold set2.
        destruct (Nat.le_ge_cases p q) as [Q|Q].
        * rewrite (Nat.max_r p q), (Nat.min_l p q) by exact Q. rewrite (Nat.eqb_sym i q), (Nat.eqb_sym j p).
          destruct (Nat.eqb_spec q i) as [->|], (Nat.eqb_spec p j) as [->|]; cbn [andb]; try reflexivity; repeat match goal with |- context [Nat.eqb ?a ?b] => destruct (Nat.eqb_spec a b); cbn [andb] end; try reflexivity; exfalso; lia.
        * rewrite (Nat.max_l p q), (Nat.min_r p q) by exact Q. rewrite (Nat.eqb_sym i p), (Nat.eqb_sym j q).
          destruct (Nat.eqb_spec p i) as [->|], (Nat.eqb_spec q j) as [->|]; cbn [andb]; repeat match goal with |- context [Nat.eqb ?a ?b] => destruct (Nat.eqb_spec a b); cbn [andb] end; try reflexivity; exfalso; lia. }
  destruct (G (lower_triangle n) (fun _ _ => zero) 0%nat) as [b [Eb Vb]].
  - intros i _. reflexivity.
  - intros [i j] H. unfold lower_triangle in H. apply in_flat_map in H. destruct H as [i' [Hi H]]. apply in_map_iff in H. destruct H as [j' [E Hj]].
    injection E as <- <-. apply in_seq in Hj. cbn. lia.
  - exists b. split; [match goal with |- match ?e with _ => _ end = _ => replace e with (Some (b, (0 + length (lower_triangle n))%nat)) by (symmetry; exact Eb) end; reflexivity|]. intros p q Hp Hq. rewrite Vb.
    assert (E : existsb (fun ij => ((fst ij =? Nat.max p q) && (snd ij =? Nat.min p q))%nat) (lower_triangle n) = true).
    { apply existsb_exists. exists (Nat.max p q, Nat.min p q). split; [|cbn [fst snd]; rewrite !Nat.eqb_refl; reflexivity].
      unfold lower_triangle. apply in_flat_map. exists (Nat.max p q). split; [apply in_seq; lia|]. apply in_map_iff. exists (Nat.min p q). split; [reflexivity|]. apply in_seq. lia. }
    rewrite E. reflexivity.
Qed.
(** twobody.inp: the array comes back (rounded) with its second and third index exchanged, because the file is written in the order of the array and
    read as chemists' notation; the nuclear repulsion comes back. *)
Theorem C59_twobody : forall V (zero : V) rnd n a nuc,
  exists b, load_twobody V zero n (dump_twobody V rnd n a nuc) = Some (rnd nuc, b)
    /\ forall p q r s, (p < n)%nat -> (q < n)%nat -> (r < n)%nat -> (s < n)%nat -> b p q r s = rnd (a p r q s).
Proof.
  intros V zero rnd n a nuc. unfold load_twobody, dump_twobody. rewrite fold_left_app.
  set (lines := flat_map _ (seq 0 n)).
  assert (HF : forall x, In x lines <-> exists i j k l, x = (Z.of_nat i + 1, Z.of_nat j + 1, Z.of_nat k + 1, Z.of_nat l + 1, rnd (a i j k l)) /\ (i < n)%nat /\ (j < n)%nat /\ (k < n)%nat /\ (l < n)%nat).
  { intros x. unfold lines. split.
    - intros H. apply in_flat_map in H. destruct H as [i [Hi H]]. apply in_flat_map in H. destruct H as [k [Hk H]]. apply in_flat_map in H. destruct H as [j [Hj H]].
      apply in_map_iff in H. destruct H as [l [<- Hl]]. apply in_seq in Hi, Hj, Hk, Hl. exists i, j, k, l. split; [reflexivity|lia].
    - intros (i & j & k & l & -> & H). apply in_flat_map. exists i. split; [apply in_seq; lia|]. apply in_flat_map. exists k. split; [apply in_seq; lia|].
      apply in_flat_map. exists j. split; [apply in_seq; lia|]. apply in_map_iff. exists l. split; [reflexivity|apply in_seq; lia]. }
  assert (G : forall L b0 nn, (forall x, In x L -> In x lines) ->
    exists b, fold_left (two_line V n) L (Some (b0, nn)) = Some (b, nn)
      /\ forall i j k l, ((exists x, In x L /\ x = (Z.of_nat i + 1, Z.of_nat j + 1, Z.of_nat k + 1, Z.of_nat l + 1, rnd (a i j k l))) -> b i j k l = rnd (a i j k l))
          /\ (b i j k l = rnd (a i j k l) \/ b i j k l = b0 i j k l)).
  { induction L as [|x L IH]; intros b0 nn HL.
    - exists b0. split; [reflexivity|]. intros i j k l. split; [intros [x [[] _]]|right; reflexivity].
    - destruct (proj1 (HF x) (HL x (or_introl eq_refl))) as (i & j & k & l & -> & Hi & Hj & Hk & Hl). cbn [fold_left].
      assert (E : two_line V n (Some (b0, nn)) (Z.of_nat i + 1, Z.of_nat j + 1, Z.of_nat k + 1, Z.of_nat l + 1, rnd (a i j k l)) = Some (set4 V b0 i j k l (rnd (a i j k l)), nn)).
      { unfold two_line. destruct (Z.eqb_spec (Z.of_nat i + 1 + (Z.of_nat j + 1) + (Z.of_nat k + 1) + (Z.of_nat l + 1)) 0); [lia|]. unfold write4.
        rewrite !resolve_in by lia. replace (Z.to_nat (Z.of_nat i + 1 - 1)) with i by lia. replace (Z.to_nat (Z.of_nat j + 1 - 1)) with j by lia.
        replace (Z.to_nat (Z.of_nat k + 1 - 1)) with k by lia. replace (Z.to_nat (Z.of_nat l + 1 - 1)) with l by lia. reflexivity. }
      rewrite E. destruct (IH (set4 V b0 i j k l (rnd (a i j k l))) nn) as [b [Eb Vb]]; [intros y Hy; apply HL; right; exact Hy|].
      exists b. split; [exact Eb|]. intros i' j' k' l'. destruct (Vb i' j' k' l') as [V1 V2]. unfold set4 in V2. split.
      + intros [y [[<-|Hy] Ey]]; [|apply V1; exists y; auto]. injection Ey as H1 H2 H3 H4 _.
        assert (i = i' /\ j = j' /\ k = k' /\ l = l') as (-> & -> & -> & ->) by lia. rewrite !Nat.eqb_refl in V2. cbn [andb] in V2. destruct V2; assumption.
      + destruct (Nat.eqb_spec i' i), (Nat.eqb_spec j' j), (Nat.eqb_spec k' k), (Nat.eqb_spec l' l); subst; cbn [andb] in V2; tauto. }
  destruct (G lines (fun _ _ _ _ => zero) None (fun x H => H)) as [b [Eb Vb]].
  match goal with |- context [fold_left (two_line V n) lines ?e] => replace (fold_left (two_line V n) lines e) with (Some (b, @None V)) by (symmetry; exact Eb) end. cbn [fold_left two_line]. cbn.
  eexists. split; [reflexivity|]. cbv beta. intros p q r s Hp Hq Hr Hs. apply (proj1 (Vb p r q s)).
  eexists. split; [|reflexivity]. apply HF. exists p, r, q, s. split; [reflexivity|lia].
Qed.
(** Hence the physicists'-order array that the natural-orbital code dumps is not what is read back. *)
Theorem C59_roundtrip_refuted : exists (a : nat -> nat -> nat -> nat -> Z) b nn,
  load_twobody Z 0 2 (dump_twobody Z (fun x => x) 2 a 0) = Some (nn, b)
  /\ (forall p q r s, a p q r s = a r q p s /\ a p q r s = a p s r q /\ a p q r s = a q p s r) /\ b 0%nat 1%nat 0%nat 1%nat <> a 0%nat 1%nat 0%nat 1%nat.
Proof.
  set (a := fun p q r s : nat => (Z.of_nat p + Z.of_nat r) * (Z.of_nat q + Z.of_nat s)).
  destruct (C59_twobody Z 0 (fun x => x) 2 a 0) as [b [E B]]. exists a, b, 0. split; [exact E|]. split.
  - intros. unfold a. repeat split; ring.
  - rewrite B by lia. unfold a. cbn. discriminate.
Qed.

(** Instances: a complete file on two orbitals satisfies the hypotheses of C30 and C31, and fails with one deleted orbital out of four. *)
Definition small_dump : list (line Z) :=
  [mkLine Z 70 1 1 1 1; mkLine Z 71 2 1 1 1; mkLine Z 72 2 2 1 1; mkLine Z 73 2 1 2 1; mkLine Z 74 2 2 2 1; mkLine Z 75 2 2 2 2;
   mkLine Z 5 1 1 0 0; mkLine Z 3 2 1 0 0; mkLine Z 4 2 2 0 0; mkLine Z 1 0 0 0 0].
Example C30_instance : (forall l, In l small_dump -> labels_ok 2 l) /\ (exists l, In l small_dump /\ is_two l = false /\ is_one l = false)
  /\ (match load_fcidump Z 0 2 0 0 small_dump with
      | Some (h, v, nn) => v 0%nat 1%nat 1%nat 0%nat = 73 /\ v 0%nat 1%nat 0%nat 1%nat = 72 /\ h 0%nat 1%nat = 3 | None => False end)
  /\ load_fcidump Z 0 4 0 1 (mkLine Z 6 4 4 4 4 :: small_dump) = None.
Proof.
  split; [|split; [|split]].
  - intros l Hl. unfold small_dump in Hl. cbn in Hl. unfold labels_ok, is_two, is_one.
    repeat (destruct Hl as [<-|Hl]; [cbn; split; intros; try discriminate; lia|]). contradiction.
  - exists (mkLine Z 1 0 0 0 0). split; [cbn; tauto|split; reflexivity].
  - vm_compute. auto.
  - vm_compute. reflexivity.
Qed.
Print Assumptions C30_symmetry. Print Assumptions C30_values. Print Assumptions C30_loads. Print Assumptions C31_deleted_orbitals_refuted.
Print Assumptions C31_one_electron. Print Assumptions C31_orbital_energy_refuted. Print Assumptions C59_onebody. Print Assumptions C59_twobody. Print Assumptions C59_roundtrip_refuted.
