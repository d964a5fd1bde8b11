From Coq Require Import List Arith Bool NArith Lia.
From Verif Require Import SelectModel SelectSpec.
Import ListNotations.
Open Scope nat_scope.

Lemma spin_eqb_refl : forall s, spincase_eqb s s = true. Proof. now destruct s. Qed.
Lemma triple_inv : forall t, triple t -> exists a b c i j k, t = [S a; S b; S c; S i; S j; S k].
Proof.
  intros t (L & P). destruct t as [|a [|b [|c [|i [|j [|k [|? ?]]]]]]]; try discriminate L.
  assert (1 <= a) by (apply P; cbn; tauto). assert (1 <= b) by (apply P; cbn; tauto). assert (1 <= c) by (apply P; cbn; tauto).
  assert (1 <= i) by (apply P; cbn; tauto). assert (1 <= j) by (apply P; cbn; tauto). assert (1 <= k) by (apply P; cbn; tauto).
  exists (a - 1), (b - 1), (c - 1), (i - 1), (j - 1), (k - 1). repeat f_equal; lia.
Qed.
Lemma alpha_odd : forall p, alpha (S p) mod 2 = 1.
Proof. intros. unfold alpha. replace (2 * S p - 1) with (1 + p * 2) by lia. rewrite Nat.mod_add by lia. reflexivity. Qed.
Lemma beta_even : forall p, beta p mod 2 = 0.
Proof. intros. unfold beta. rewrite Nat.mul_comm. apply Nat.mod_mul. lia. Qed.
Lemma spatial_alpha : forall p, spatial_orb_idx (alpha (S p)) = S p.
Proof. intros. unfold spatial_orb_idx. rewrite alpha_odd. cbn [Nat.eqb]. unfold alpha. replace (2 * S p - 1 + 1) with (S p * 2) by lia. apply Nat.div_mul. lia. Qed.
Lemma spatial_beta : forall p, spatial_orb_idx (beta p) = p.
Proof. intros. unfold spatial_orb_idx. rewrite beta_even. cbn [Nat.eqb]. unfold beta. rewrite Nat.mul_comm. apply Nat.div_mul. lia. Qed.

Lemma xor_order : forall r i j k a b c : N,
  N.lxor (N.lxor (N.lxor (N.lxor (N.lxor (N.lxor r i) j) k) a) b) c = fold_right N.lxor r [i; j; k; a; b; c].
Proof.
  intros. cbn [fold_right]. apply N.bits_inj. intros m. rewrite !N.lxor_spec.
  destruct (N.testbit r m), (N.testbit i m), (N.testbit j m), (N.testbit k m), (N.testbit a m), (N.testbit b m), (N.testbit c m); reflexivity.
Qed.

Section A.
Variables (y : symdata) (rhf : bool).

Definition ext (st : addstate) (s : spincase) (t : row) : addstate := append y s (map pred t) st.

Lemma add_one_unset : forall st, add_one y rhf st [0; 0; 0; 0; 0; 0] = st.
Proof. reflexivity. Qed.
Lemma add_one_triple : forall st s t, triple t ->
  add_one y rhf st (spin_orbitals s t) =
  match s with
  | aaa => if rhf then ext (ext st aaa t) bbb t else ext st aaa t
  | aab => if rhf then ext (ext st aab t) abb (flip t) else ext st aab t
  | abb => if rhf then st else ext st abb t
  | bbb => if rhf then st else ext st bbb t
  end.
Proof.
  intros st s t T. destruct (triple_inv t T) as (a & b & c & i & j & k & ->).
  destruct s; cbn [spin_orbitals flip]; unfold add_one, num_alpha; cbn [map list_sum fold_right forallb];
    rewrite ?alpha_odd, ?beta_even, ?spatial_alpha, ?spatial_beta; cbn [Nat.eqb andb]; rewrite ?Nat.sub_succ, ?Nat.sub_0_r;
    match goal with |- context [?x / 2] => let v := eval vm_compute in (x / 2) in change (x / 2) with v end; cbn [Nat.eqb];
    unfold ext; cbn [map pred]; destruct rhf; reflexivity.
Qed.

(** Number of rows with irrep x. *)
Definition with_irrep (x : N) (s : spincase) (l : list row) : nat := length (filter (fun t => N.eqb (row_irrep y s t) x) l).
Lemma irrep_eq : forall s t, triple t -> excitation_symmetry y (map pred t) s = row_irrep y s t.
Proof.
  intros s t T. destruct (triple_inv t T) as (a & b & c & i & j & k & ->). cbn [map pred excitation_symmetry row_irrep].
  rewrite !Nat.sub_succ, !Nat.sub_0_r, !Nat.add_succ_r, !Nat.sub_succ, !Nat.sub_0_r.
  destruct s; rewrite xor_order; cbn [app]; rewrite (Nat.add_comm a), (Nat.add_comm b), (Nat.add_comm c); reflexivity.
Qed.
Lemma triple_flip : forall t, triple t -> triple (flip t).
Proof.
  intros t T. destruct (triple_inv t T) as (a & b & c & i & j & k & ->). split; [reflexivity|]. cbn. intros x [<-|[<-|[<-|[<-|[<-|[<-|[]]]]]]]; lia.
Qed.

Record added (st st' : addstate) (add : spincase -> list row) : Prop := {
  add_l : forall s, new_lists st' s = new_lists st s ++ add s;
  add_n : forall s, new_nums st' s = new_nums st s + length (add s);
  add_c : forall x s, by_symmetry st' x s = by_symmetry st x s + with_irrep x s (add s) }.
Lemma added_nil : forall st, added st st (fun _ => []).
Proof. intros. split; intros; [now rewrite app_nil_r|cbn; lia|cbn; lia]. Qed.
Lemma added_trans : forall a b c f g, added a b f -> added b c g -> added a c (fun s => f s ++ g s).
Proof.
  intros a b c f g [L1 N1 C1] [L2 N2 C2]. split; intros.
  - now rewrite L2, L1, app_assoc.
  - rewrite N2, N1, app_length. lia.
  - rewrite C2, C1. unfold with_irrep. rewrite filter_app, app_length. lia.
Qed.
Lemma added_ext : forall st s t, triple t -> added st (ext st s t) (fun x => if spincase_eqb x s then [t] else []).
Proof.
  intros st s t T. assert (E : map S (map pred t) = t).
  { destruct (triple_inv t T) as (a & b & c & i & j & k & ->). reflexivity. }
  split; unfold ext, append; cbn [new_lists new_nums by_symmetry]; intros.
  - rewrite E. unfold set_list. destruct s, s0; cbn [spincase_eqb]; rewrite ?app_nil_r; reflexivity.
  - destruct s, s0; cbn [spincase_eqb length]; lia.
  - unfold count_one. rewrite (irrep_eq s t T). unfold with_irrep.
    destruct s, s0; cbn [spincase_eqb filter andb]; rewrite ?andb_true_r, ?andb_false_r; cbn [length]; try lia; rewrite (N.eqb_sym x);
      match goal with |- context [N.eqb ?u ?v] => destruct (N.eqb u v) end; cbn [length]; lia.
Qed.
Lemma added_same : forall a b f g, (forall s, f s = g s) -> added a b f -> added a b g.
Proof. intros a b f g E [L N C]. split; intros; rewrite <- ?E; auto. Qed.

Lemma additions_app : forall s s1 s2, additions rhf s (s1 ++ s2) = additions rhf s s1 ++ additions rhf s s2.
Proof.
  assert (G : forall s s1 s2, chosen s (s1 ++ s2) = chosen s s1 ++ chosen s s2).
  { induction s1 as [|[[s' t]|] s1 IH]; intros s2; cbn [chosen app]; [reflexivity| |apply IH]. destruct (spincase_eqb s s'); cbn [app]; now rewrite IH. }
  intros. destruct s; cbn [additions]; destruct rhf; rewrite ?G, ?map_app; reflexivity.
Qed.
Lemma loop_added : forall sel st, well_formed sel -> added st (fold_left (add_one y rhf) (rows_of sel) st) (fun s => additions rhf s sel).
Proof.
  induction sel as [|o sel IH]; intros st W.
  - cbn. eapply added_same; [|apply added_nil]. intros []; cbn; now destruct rhf.
  - assert (W' : well_formed sel) by (intros s t H; apply (W s t); now right).
    cbn [rows_of map fold_left]. fold (rows_of sel). set (st1 := add_one y rhf st _).
    assert (A : added st st1 (fun s => additions rhf s [o])).
    { subst st1. destruct o as [[s t]|].
      - assert (T : triple t) by (apply (W s t); now left). rewrite add_one_triple by exact T.
        destruct s, rhf.
        + eapply added_same; [|eapply added_trans; [apply added_ext; exact T|apply added_ext; exact T]]. now intros [].
        + eapply added_same; [|apply added_ext; exact T]. now intros [].
        + eapply added_same; [|eapply added_trans; [apply added_ext; exact T|apply added_ext; now apply triple_flip]]. now intros [].
        + eapply added_same; [|apply added_ext; exact T]. now intros [].
        + eapply added_same; [|apply added_nil]. now intros [].
        + eapply added_same; [|apply added_ext; exact T]. now intros [].
        + eapply added_same; [|apply added_nil]. now intros [].
        + eapply added_same; [|apply added_ext; exact T]. now intros [].
      - eapply added_same; [|apply added_nil]. intros []; cbn; now destruct rhf. }
    eapply added_same; [|eapply added_trans; [exact A|apply IH; exact W']].
    intros s. cbv beta. change (o :: sel) with ([o] ++ sel). symmetry. apply additions_app.
Qed.

Lemma add_t3_grow : forall old add, old <> [] -> add_t3_excitations add old (length add) = Some (grow old add).
Proof.
  intros old add N. unfold add_t3_excitations, grow. destruct add as [|x add]; [reflexivity|]. cbn [length Nat.ltb Nat.leb].
  destruct old as [|r old]; [congruence|]. cbn [hd]. unfold ones. destruct (row_eq_dec r [1; 1; 1; 1; 1; 1]); reflexivity.
Qed.

Lemma add_correct : forall sel old n, well_formed sel -> (forall s, old s <> []) ->
  exists new n', add_spinorbital_triples_to_pspace y rhf (rows_of sel) old n = Some (new, n') /\
    (forall s, new s = grow (old s) (additions rhf s sel)) /\
    forall x s, n' x s = n x s + with_irrep x s (additions rhf s sel).
Proof.
  intros sel old n W N. unfold add_spinorbital_triples_to_pspace, add_loop.
  destruct (loop_added sel {| new_lists := fun _ => []; new_nums := fun _ => 0; by_symmetry := n |} W) as [L Nm C].
  set (st := fold_left _ _ _) in *. cbn [new_lists new_nums by_symmetry] in *.
  rewrite !L, !Nm. cbn [app Nat.add]. rewrite !add_t3_grow by apply N.
  eexists _, _. split; [reflexivity|]. split; [now intros []|]. exact C.
Qed.
End A.

Lemma grow_nonempty : forall old add, old <> [] -> grow old add <> [].
Proof.
  intros old add N. unfold grow. destruct add; [exact N|]. destruct (row_eq_dec (hd [] old) ones); [discriminate|]. destruct old; [congruence|discriminate].
Qed.
Lemma chosen_in : forall s sel t, In t (chosen s sel) -> In (Some (s, t)) sel.
Proof.
  induction sel as [|[[s' t']|] sel IH]; intros t H; cbn [chosen] in H; [destruct H| |right; auto].
  destruct (spincase_eqb s s') eqn:E; [|right; auto].
  destruct H as [<-|H]; [|right; auto]. left. destruct s, s'; cbn in E; try discriminate; reflexivity.
Qed.
