(** The similarity-transformed Hamiltonian of CCSD from the integrals and T1 + T2 is that from the dressed integrals and T2 alone (proof support). *)
From Coq Require Import Reals Arith NArith List Bool Lia Lra QArith Qreals ZArith FunctionalExtensionality.
From Verif Require Import RSum IntegralsModel TensorObjs TensorAlg TensorSpec CcsdModel CcsdUpdate CcsdReify CcsdProps FockSpec FockArrays FockCcSpec FockWick FockTerms FockCheck FockState FockProj FockSector FockSectorTools FockDress FockShift FockSector3.
Import ListNotations.
Local Open Scope nat_scope.

(** * Expressions for the dressed arrays *)
Notation axis := (bool * bool * nat * nat)%type. (* creator?, alpha?, unoccupied, label *)
Definition cls (s : bool) (c : nat) : nat := (if s then 0 else 2) + c.
Definition t1n (s : bool) : nat := if s then 0 else 1.
Fixpoint dress (leaf : nat -> list axis -> ex) (todo : list axis) (z : nat) (acc : list axis) : ex :=
  match todo with
  | [] => leaf z acc
  | (cr, s, c, x) :: r =>
      let same := dress leaf r z (acc ++ [(cr, s, c, x)]) in
      match cr, c with
      | true, 1 => ESub same (ESum z (cls s 0) (EMul (ET (t1n s) [x; z]) (dress leaf r (S z) (acc ++ [(cr, s, 0, z)]))))
      | false, 0 => EAdd same (ESum z (cls s 1) (EMul (ET (t1n s) [z; x]) (dress leaf r (S z) (acc ++ [(cr, s, 1, z)]))))
      | _, _ => same
      end
  end.
Definition code (l : list axis) : nat := fold_left (fun a '(_, _, c, _) => 2 * a + c) l 0.
Definition labs (l : list axis) : list nat := map (fun '(_, _, _, x) => x) l.
Definition leaf2 (base : nat) (z : nat) (l : list axis) : ex := ET (base + code l) (labs l).
Definition leaf1 (s : bool) (z : nat) (l : list axis) : ex :=
  match l with
  | [(_, _, c1, x); (_, _, c2, y)] =>
      EAdd (EAdd (ET ((if s then 9 else 13) + code l) [x; y])
        (ESum z (cls s 0) (ESum (S z) (cls s 1) (EMul (ET ((if s then 17 else 49) + 8 * c1 + 2 * c2 + 1) [x; z; y; S z]) (ET (t1n s) [S z; z])))))
        (ESum z (cls (negb s) 0) (ESum (S z) (cls (negb s) 1) (EMul (if s then ET (33 + 8 * c1 + 2 * c2 + 1) [x; z; y; S z] else ET (33 + 4 * c1 + 2 + c2) [z; x; S z; y]) (ET (t1n (negb s)) [S z; z]))))
  | _ => EC 0 1
  end.
Definition bit2 (k j : nat) : nat := (k / j) mod 2.
Definition sub (k z : nat) (ix : list nat) : ex :=
  if k <? 2 then EC 0 1 else if k <? 9 then ET k ix
  else match ix with
  | [x; y] => let s := k <? 13 in dress (leaf1 s) [(true, s, bit2 (k - 9) 2, x); (false, s, bit2 (k - 9) 1, y)] z []
  | [x; y; u; t] => let s1 := k <? 49 in let s2 := k <? 33 in let j := k - 17 in
      dress (leaf2 (if s2 then 17 else if s1 then 33 else 49)) [(true, s1, bit2 j 8, x); (true, s2, bit2 j 4, y); (false, s1, bit2 j 2, u); (false, s2, bit2 j 1, t)] z []
  | _ => EC 0 1
  end.
Fixpoint inst (z : nat) (e : ex) : ex :=
  match e with
  | EC n d => EC n d | ET k ix => sub k z ix
  | EAdd a b => EAdd (inst z a) (inst z b) | ESub a b => ESub (inst z a) (inst z b) | EOpp a => EOpp (inst z a) | EMul a b => EMul (inst z a) (inst z b)
  | EScale n d a => EScale n d (inst z a) | ESum x d a => ESum x d (inst z a)
  end.

(** * Expressions whose indices run over the axes of the arrays *)
Fixpoint lookc (x : nat) (G : list (nat * nat)) : option nat := match G with [] => None | (y, c) :: r => if Nat.eqb x y then Some c else lookc x r end.
Definition fits1 (G : list (nat * nat)) (z : nat) (x c : nat) : bool := Nat.ltb x z && match lookc x G with Some c' => Nat.eqb c' c | None => false end.
Fixpoint fitsl (G : list (nat * nat)) (z : nat) (ix cs : list nat) : bool :=
  match ix, cs with [], [] => true | x :: r, c :: q => fits1 G z x c && fitsl G z r q | _, _ => false end.
Fixpoint typed (sg : nat -> option (list nat)) (z : nat) (G : list (nat * nat)) (e : ex) : bool :=
  match e with
  | EC _ _ => true
  | ET k ix => match sg k with Some cs => fitsl G z ix cs | None => Nat.leb 66 k end
  | EAdd a b => typed sg z G a && typed sg z G b | ESub a b => typed sg z G a && typed sg z G b | EMul a b => typed sg z G a && typed sg z G b
  | EOpp a => typed sg z G a | EScale _ _ a => typed sg z G a
  | ESum x c a => Nat.ltb x z && typed sg z ((x, c) :: G) a
  end.
Definition ranged (dim : nat -> nat) (G : list (nat * nat)) (v : nat -> nat) : Prop := forall x c, lookc x G = Some c -> v x < dim c.
Definition inrange (dim : nat -> nat) (v : nat -> nat) (z : nat) (ix cs : list nat) : Prop := Forall2 (fun x c => x < z /\ v x < dim c) ix cs.
Lemma fitsl_ok dim G v z : ranged dim G v -> forall ix cs, fitsl G z ix cs = true -> inrange dim v z ix cs.
Proof.
  intros HR. induction ix as [|x ix IH]; intros [|c cs] H; cbn [fitsl] in H; try discriminate; constructor.
  - apply andb_prop in H as (H & _). unfold fits1 in H. apply andb_prop in H as (H1 & H2). apply Nat.ltb_lt in H1. destruct (lookc x G) as [c'|] eqn:E; [|discriminate]. apply Nat.eqb_eq in H2. subst c'. split; [exact H1|now apply HR].
  - apply andb_prop in H as (_ & H). now apply IH.
Qed.
Lemma ranged_upd dim G v x c i : ranged dim G v -> i < dim c -> ranged dim ((x, c) :: G) (upd v x i).
Proof.
  intros HR Hi y c' H. cbn [lookc] in H. unfold upd. destruct (Nat.eqb y x); [injection H as <-; exact Hi|now apply HR].
Qed.
Local Open Scope R_scope.
(** Arrays that agree on their ranges *)
Lemma typed_den dim ten ten' sg z e : (forall k cs, sg k = Some cs -> forall v ix, inrange dim v z ix cs -> ten k (map v ix) = ten' k (map v ix)) -> (forall k l, (66 <= k)%nat -> ten k l = ten' k l) ->
  forall G v, typed sg z G e = true -> ranged dim G v -> den dim ten e v = den dim ten' e v.
Proof.
  intros HS HL. induction e as [n d|k ix|a IHa b IHb|a IHa b IHb|a IHa|a IHa b IHb|n d a IHa|x d a IHa]; intros G v H HR; cbn [den typed] in *;
    try (apply andb_prop in H as (H1 & H2)); try (now rewrite (IHa G v), (IHb G v)); try (now rewrite (IHa G v)).
  - reflexivity.
  - destruct (sg k) as [cs|] eqn:E; [apply (HS k cs E v ix); now apply (fitsl_ok dim G)|apply Nat.leb_le in H; now apply HL].
  - apply sumn_ext; intros i Hi. apply (IHa ((x, d) :: G)); [exact H2|now apply ranged_upd].
Qed.
(** Putting expressions in place of the arrays *)
Lemma inst_den dim ten ten' sg z e : (forall k cs, sg k = Some cs -> forall v ix, inrange dim v z ix cs -> den dim ten (sub k z ix) v = ten' k (map v ix)) -> (forall k, (66 <= k)%nat -> sg k <> None) ->
  forall G v, typed sg z G e = true -> ranged dim G v -> den dim ten (inst z e) v = den dim ten' e v.
Proof.
  intros HS HL. induction e as [n d|k ix|a IHa b IHb|a IHa b IHb|a IHa|a IHa b IHb|n d a IHa|x d a IHa]; intros G v H HR; cbn [den typed inst] in *;
    try (apply andb_prop in H as (H1 & H2)); try (now rewrite (IHa G v), (IHb G v)); try (now rewrite (IHa G v)).
  - reflexivity.
  - destruct (sg k) as [cs|] eqn:E; [apply (HS k cs E v ix); now apply (fitsl_ok dim G)|apply Nat.leb_le in H; now destruct (HL k H)].
  - apply sumn_ext; intros i Hi. apply (IHa ((x, d) :: G)); [exact H2|now apply ranged_upd].
Qed.

(** * The expressions denote the dressed arrays *)
Section D.
Variables (d : dims) (I : integrals) (T : amps).
Notation H := (fock_ints (noa d) (nob d) I).
Notation ten := (ften H T).
Notation dn e v := (den (fdim d) ten e v).
Notation no := (no d). Notation nu := (nu d). Notation da := (da d T). Notation dc := (dc d T). Notation d4 := (d4 d T). Notation d2 := (d2 d T).
Definition pos (v : nat -> nat) (a : axis) : nat := let '(_, s, c, x) := a in match c with O => v x | _ => (no s + v x)%nat end.
Definition aok (v : nat -> nat) (z : nat) (a : axis) : Prop := let '(_, s, c, x) := a in (c < 2)%nat /\ (x < z)%nat /\ (v x < fdim d (cls s c))%nat.
Fixpoint dr (todo : list axis) (v : nat -> nat) (F : list nat -> R) : R :=
  match todo with
  | [] => F []
  | (cr, s, c, x) :: r => (if cr then dc else da) s (fun p => dr r v (fun l => F (p :: l))) (pos v (cr, s, c, x))
  end.
Lemma dcls s c : fdim d (cls s c) = match c with O => no s | 1%nat => nu s | _ => fdim d (cls s c) end. Proof. destruct s, c as [|[|c]]; reflexivity. Qed.
Lemma t1_ten s a i : ten (t1n s) [a; i] = t1 T s a i. Proof. destruct s; reflexivity. Qed.
Lemma dr_ext todo v F G : (forall l, F l = G l) -> dr todo v F = dr todo v G.
Proof.
  revert F G. induction todo as [|[[[cr s] c] x] r IH]; intros F G E; cbn [dr]; [apply E|].
  destruct cr; [apply dc_ext|apply da_ext]; intros p; apply IH; intros l; apply E.
Qed.
Lemma dr_upd todo v F z i : Forall (aok v z) todo -> dr todo (upd v z i) F = dr todo v F.
Proof.
  revert F. induction todo as [|[[[cr s] c] x] r IH]; intros F HA; [reflexivity|]. assert (A1 := Forall_inv HA). assert (A2 := Forall_inv_tail HA). destruct A1 as (_ & A & _). cbn [dr].
  replace (pos (upd v z i) (cr, s, c, x)) with (pos v (cr, s, c, x)) by (unfold pos, upd; replace (Nat.eqb x z) with false by (symmetry; apply Nat.eqb_neq; lia); reflexivity).
  destruct cr; [apply dc_ext|apply da_ext]; intros p; now apply IH.
Qed.
Lemma aok_S v z i a : aok v z a -> aok (upd v z i) (S z) a.
Proof.
  destruct a as [[[cr s] c] x]. intros (A1 & A2 & A3). unfold aok, upd. replace (Nat.eqb x z) with false by (symmetry; apply Nat.eqb_neq; lia). repeat split; try lia.
Qed.
Lemma pos_upd v z i acc : Forall (aok v z) acc -> map (pos (upd v z i)) acc = map (pos v) acc.
Proof.
  intros HA. apply map_ext_in. intros a Ha. rewrite Forall_forall in HA. specialize (HA a Ha). destruct a as [[[cr s] c] x]. destruct HA as (_ & A & _). unfold pos, upd.
  replace (Nat.eqb x z) with false by (symmetry; apply Nat.eqb_neq; lia). reflexivity.
Qed.
Definition leaf_ok (leaf : nat -> list axis -> ex) (F : list nat -> R) (sh : list (bool * bool)) : Prop :=
  forall z l v, map (fun '(cr, s, _, _) => (cr, s)) l = sh -> Forall (aok v z) l -> dn (leaf z l) v = F (map (pos v) l).
Lemma dress_ok leaf F sh : leaf_ok leaf F sh -> forall todo z acc v, map (fun '(cr, s, _, _) => (cr, s)) (acc ++ todo) = sh -> Forall (aok v z) (acc ++ todo) ->
  dn (dress leaf todo z acc) v = dr todo v (fun l => F (map (pos v) acc ++ l)).
Proof.
  intros HL. induction todo as [|[[[cr s] c] x] r IH]; intros z acc v HS HA; cbn [dress dr].
  - rewrite app_nil_r in *. now apply HL.
  - assert (HA' := HA). apply Forall_app in HA' as (HA1 & HA2). assert (AX := Forall_inv HA2). assert (AR := Forall_inv_tail HA2). destruct AX as (C2 & Xz & Rx).
    assert (SAME : dn (dress leaf r z (acc ++ [(cr, s, c, x)])) v = dr r v (fun l => F (map (pos v) acc ++ pos v (cr, s, c, x) :: l))).
    { rewrite IH; [|now rewrite <- app_assoc|now rewrite <- app_assoc]. apply dr_ext; intros l. rewrite map_app, <- app_assoc. reflexivity. }
    assert (NEW : forall c' i, (c' < 2)%nat -> (i < fdim d (cls s c'))%nat -> dn (dress leaf r (S z) (acc ++ [(cr, s, c', z)])) (upd v z i) = dr r v (fun l => F (map (pos v) acc ++ (match c' with O => i | _ => (no s + i)%nat end) :: l))).
    { intros c' i Hc Hi. rewrite IH.
      - rewrite dr_upd by exact AR. apply dr_ext; intros l. rewrite map_app, <- app_assoc, pos_upd by exact HA1. cbn [map app pos]. unfold upd. rewrite Nat.eqb_refl. reflexivity.
      - rewrite <- app_assoc. cbn [app]. rewrite map_app in *. exact HS.
      - rewrite <- app_assoc. apply Forall_app. split; [eapply Forall_impl; [|exact HA1]; intros a; apply aok_S|]. constructor; [|eapply Forall_impl; [|exact AR]; intros a; apply aok_S].
        unfold aok, upd. rewrite Nat.eqb_refl. repeat split; try lia; assumption. }
    assert (N0 : forall i, (i < no s)%nat -> Nat.ltb i (no s) = true) by (intros; now apply Nat.ltb_lt).
    destruct c as [|[|c]]; [| |lia]; destruct cr; cbn [pos] in *; rewrite dcls in Rx; cbv zeta iota beta.
    + rewrite SAME. unfold FockDress.dc. rewrite N0 by exact Rx. rewrite sumn_0 by (intros; ring). ring.
    + cbn [den]. rewrite SAME. unfold FockDress.da. f_equal. rewrite dcls. apply sumn_ext; intros i Hi. rewrite N0 by exact Rx. cbn [map]. unfold upd at 1 2. rewrite Nat.eqb_refl.
      replace (Nat.eqb x z) with false by (symmetry; apply Nat.eqb_neq; lia). rewrite t1_ten. f_equal. apply (NEW 1%nat i); [lia|now rewrite dcls].
    + cbn [den]. rewrite SAME. unfold FockDress.dc. f_equal. rewrite dcls. apply sumn_ext; intros i Hi. replace (Nat.ltb (no s + v x) (no s)) with false by (symmetry; apply Nat.ltb_ge; lia).
      replace (no s + v x - no s)%nat with (v x) by lia. cbn [map]. unfold upd at 1 2. rewrite Nat.eqb_refl.
      replace (Nat.eqb x z) with false by (symmetry; apply Nat.eqb_neq; lia). rewrite t1_ten. f_equal. apply (NEW 0%nat i); [lia|now rewrite dcls].
    + rewrite SAME. unfold FockDress.da. rewrite sumn_0; [ring|]. intros i _. replace (Nat.ltb (no s + v x) (no s)) with false by (symmetry; apply Nat.ltb_ge; lia). ring.
Qed.

Definition F4 (w : nat -> nat -> nat -> nat -> R) (l : list nat) : R := match l with [p; q; r; s] => w p q r s | _ => 0 end.
Definition F2 (w : nat -> nat -> R) (l : list nat) : R := match l with [p; q] => w p q | _ => 0 end.
Definition Ga (p q : nat) : R := fock_a (noa d) (nob d) I p q
  + sumn (noa d) (fun k => sumn (nua d) (fun a => anti_aa I p k q (noa d + a)%nat * x_a T a k)) + sumn (nob d) (fun k => sumn (nub d) (fun a => w_ab I p k q (nob d + a)%nat * x_b T a k)).
Definition Gb (p q : nat) : R := fock_b (noa d) (nob d) I p q
  + sumn (nob d) (fun k => sumn (nub d) (fun a => anti_bb I p k q (nob d + a)%nat * x_b T a k)) + sumn (noa d) (fun k => sumn (nua d) (fun a => w_ab I k p (noa d + a)%nat q * x_a T a k)).
Lemma map4 {A B} (f : A -> B) l a b c e : map f l = [a; b; c; e] -> exists x y z u, l = [x; y; z; u] /\ f x = a /\ f y = b /\ f z = c /\ f u = e.
Proof. destruct l as [|x [|y [|z [|u [|]]]]]; cbn [map]; intros [=]; subst. now exists x, y, z, u. Qed.
Lemma map2 {A B} (f : A -> B) l a b : map f l = [a; b] -> exists x y, l = [x; y] /\ f x = a /\ f y = b.
Proof. destruct l as [|x [|y [|]]]; cbn [map]; intros [=]; subst. now exists x, y. Qed.
Ltac leaf4 := let z := fresh "z" in let l := fresh "l" in let v := fresh "v" in let HS := fresh in let HA := fresh "HA" in
  intros z l v HS HA; apply map4 in HS as ([[[? ?] c1] ?] & [[[? ?] c2] ?] & [[[? ?] c3] ?] & [[[? ?] c4] ?] & -> & [= -> ->] & [= -> ->] & [= -> ->] & [= -> ->]);
  repeat match goal with X : Forall _ (_ :: _) |- _ => let A := fresh in assert (A := Forall_inv X); apply Forall_inv_tail in X; destruct A as (? & _ & _) end;
  destruct c1 as [|[|c1]]; [| |lia]; destruct c2 as [|[|c2]]; try lia; destruct c3 as [|[|c3]]; try lia; destruct c4 as [|[|c4]]; try lia; reflexivity.
Lemma leaf_aa : leaf_ok (leaf2 17) (F4 (anti_aa I)) [(true, true); (true, true); (false, true); (false, true)]. Proof. leaf4. Qed.
Lemma leaf_ab : leaf_ok (leaf2 33) (F4 (w_ab I)) [(true, true); (true, false); (false, true); (false, false)]. Proof. leaf4. Qed.
Lemma leaf_bb : leaf_ok (leaf2 49) (F4 (anti_bb I)) [(true, false); (true, false); (false, false); (false, false)]. Proof. leaf4. Qed.
Lemma upd_eq v x i : upd v x i x = i. Proof. unfold upd. now rewrite Nat.eqb_refl. Qed.
Lemma upd_ne v x i y : (y < x)%nat -> upd v x i y = v y. Proof. intros L. unfold upd. now replace (Nat.eqb y x) with false by (symmetry; apply Nat.eqb_neq; lia). Qed.
Ltac leaf2t := let z := fresh "z" in let l := fresh "l" in let v := fresh "v" in let HS := fresh in let HA := fresh "HA" in
  intros z l v HS HA; apply map2 in HS as ([[[? ?] c1] x1] & [[[? ?] c2] x2] & -> & [= -> ->] & [= -> ->]);
  repeat match goal with X : Forall _ (_ :: _) |- _ => let A := fresh in assert (A := Forall_inv X); apply Forall_inv_tail in X; destruct A as (? & ? & _) end;
  destruct c1 as [|[|c1]]; [| |lia]; destruct c2 as [|[|c2]]; try lia; unfold leaf1; cbn [den map negb]; unfold F2, Ga, Gb; (apply f_equal2; [apply f_equal2; [reflexivity|]|]); cbn [map];
  apply sumn_ext; intros i Hi; apply sumn_ext; intros j Hj; rewrite ?upd_eq, ?(upd_ne (upd v z i) (S z) j z) by lia; rewrite ?(upd_ne _ (S z) j x1), ?(upd_ne _ (S z) j x2), ?(upd_ne v z i x1), ?(upd_ne v z i x2) by lia; rewrite ?upd_eq; reflexivity.
Lemma leaf_a : leaf_ok (leaf1 true) (F2 Ga) [(true, true); (false, true)]. Proof. leaf2t. Qed.
Lemma leaf_b : leaf_ok (leaf1 false) (F2 Gb) [(true, false); (false, false)]. Proof. leaf2t. Qed.

(** Dressing is linear *)
Lemma da_plus s f g q : da s (fun x => f x + g x) q = da s f q + da s g q. Proof. unfold FockDress.da. rewrite (sumn_ext _ (fun a => _ * (_ + _)) (fun a => (if Nat.ltb q (no s) then t1 T s a q else 0) * f (no s + a)%nat + (if Nat.ltb q (no s) then t1 T s a q else 0) * g (no s + a)%nat)) by (intros; ring). rewrite sumn_plus. ring. Qed.
Lemma da_scal s c g q : da s (fun x => c * g x) q = c * da s g q. Proof. unfold FockDress.da. rewrite (sumn_ext _ (fun a => _ * (c * _)) (fun a => c * ((if Nat.ltb q (no s) then t1 T s a q else 0) * g (no s + a)%nat))) by (intros; ring). rewrite sumn_scal. ring. Qed.
Lemma dc_plus s f g q : dc s (fun x => f x + g x) q = dc s f q + dc s g q. Proof. unfold FockDress.dc. rewrite (sumn_ext _ (fun a => _ * (_ + _)) (fun a => (if Nat.ltb q (no s) then 0 else t1 T s (q - no s)%nat a) * f a + (if Nat.ltb q (no s) then 0 else t1 T s (q - no s)%nat a) * g a)) by (intros; ring). rewrite sumn_plus. ring. Qed.
Lemma dc_scal s c g q : dc s (fun x => c * g x) q = c * dc s g q. Proof. unfold FockDress.dc. rewrite (sumn_ext _ (fun a => _ * (c * _)) (fun a => c * ((if Nat.ltb q (no s) then 0 else t1 T s (q - no s)%nat a) * g a))) by (intros; ring). rewrite sumn_scal. ring. Qed.
Lemma da_sum s m (g : nat -> nat -> R) q : da s (fun x => sumn m (fun k => g k x)) q = sumn m (fun k => da s (g k) q).
Proof. induction m as [|m IH]; cbn [sumn]; [unfold FockDress.da; rewrite sumn_0 by (intros; ring); ring|]. now rewrite da_plus, IH. Qed.
Lemma dc_sum s m (g : nat -> nat -> R) q : dc s (fun x => sumn m (fun k => g k x)) q = sumn m (fun k => dc s (g k) q).
Proof. induction m as [|m IH]; cbn [sumn]; [unfold FockDress.dc; rewrite sumn_0 by (intros; ring); ring|]. now rewrite dc_plus, IH. Qed.
Lemma da_occ s g k : (k < no s)%nat -> da s g k = g k + sumn (nu s) (fun a => t1 T s a k * g (no s + a)%nat). Proof. intros L. unfold FockDress.da. apply Nat.ltb_lt in L. now rewrite L. Qed.
Lemma dc_occ s g k : (k < no s)%nat -> dc s g k = g k. Proof. intros L. unfold FockDress.dc. apply Nat.ltb_lt in L. rewrite L, sumn_0 by (intros; ring). ring. Qed.
Lemma d2_ext s f g p q : (forall x y, f x y = g x y) -> d2 s f p q = d2 s g p q. Proof. intros E. unfold FockDress.d2. apply dc_ext; intros x. apply da_ext; intros y. apply E. Qed.
Lemma d2_plus s f g p q : d2 s (fun x y => f x y + g x y) p q = d2 s f p q + d2 s g p q.
Proof. unfold FockDress.d2. rewrite <- dc_plus. apply dc_ext; intros x. apply da_plus. Qed.
Lemma d2_sum s m (g : nat -> nat -> nat -> R) p q : d2 s (fun x y => sumn m (fun k => g k x y)) p q = sumn m (fun k => d2 s (g k) p q).
Proof. unfold FockDress.d2. rewrite <- dc_sum. apply dc_ext; intros x. apply da_sum. Qed.
Lemma d4_ext s1 s2 f g p q r s : (forall x y z u, f x y z u = g x y z u) -> d4 s1 s2 f p q r s = d4 s1 s2 g p q r s.
Proof. intros E. unfold FockDress.d4. apply dc_ext; intros x. apply dc_ext; intros y. apply da_ext; intros z. apply da_ext; intros u. apply E. Qed.
Lemma d4_anti s w p q r t : d4 s s w p q r t - d4 s s w p q t r = d4 s s (fun p q r t => w p q r t - w p q t r) p q r t.
Proof.
  replace (d4 s s w p q t r) with (d4 s s (fun p q r t => w p q t r) p q r t) by (unfold FockDress.d4; apply dc_ext; intros x; apply dc_ext; intros y; apply da_da).
  rewrite (d4_ext s s (fun p q r t => w p q r t - w p q t r) (fun p q r t => w p q r t + (-1) * w p q t r)) by (intros; ring).
  replace (d4 s s (fun p q r t => w p q r t + (-1) * w p q t r) p q r t) with (d4 s s w p q r t + (-1) * d4 s s (fun p q r t => w p q t r) p q r t); [ring|].
  unfold FockDress.d4. rewrite <- dc_scal, <- dc_plus. apply dc_ext; intros x. rewrite <- dc_scal, <- dc_plus. apply dc_ext; intros y.
  rewrite <- da_scal, <- da_plus. apply da_ext; intros z. rewrite <- da_scal, <- da_plus. reflexivity.
Qed.
Lemma d4_right s1 s2 w p q k : (k < no s2)%nat -> d4 s1 s2 w p k q k = d2 s1 (fun p q => w p k q k + sumn (nu s2) (fun a => t1 T s2 a k * w p k q (no s2 + a)%nat)) p q.
Proof. intros L. unfold FockDress.d4, FockDress.d2. apply dc_ext; intros x. rewrite dc_occ by exact L. apply da_ext; intros y. now apply da_occ. Qed.
Lemma d4_left s1 s2 w p q k : (k < no s1)%nat -> d4 s1 s2 w k p k q = d2 s2 (fun p q => w k p k q + sumn (nu s1) (fun a => t1 T s1 a k * w k p (no s1 + a)%nat q)) p q.
Proof.
  intros L. unfold FockDress.d4, FockDress.d2. rewrite dc_occ by exact L. apply dc_ext; intros x. rewrite da_occ by exact L. rewrite da_plus, da_sum. f_equal. apply sumn_ext; intros a Ha. now rewrite da_scal.
Qed.
Lemma anti_dressed_a p q r s : anti_aa (dressed d T I) p q r s = d4 true true (anti_aa I) p q r s. Proof. unfold anti_aa. cbn [dressed w_aa]. now rewrite d4_anti. Qed.
Lemma anti_dressed_b p q r s : anti_bb (dressed d T I) p q r s = d4 false false (anti_bb I) p q r s. Proof. unfold anti_bb. cbn [dressed w_bb]. now rewrite d4_anti. Qed.
Lemma fock_dressed_a p q : fock_a (noa d) (nob d) (dressed d T I) p q = d2 true Ga p q.
Proof.
  unfold fock_a. cbn [dressed h_a w_aa w_ab].
  rewrite (sumn_ext (noa d) _ (fun k => d4 true true (anti_aa I) p k q k)) by (intros; apply d4_anti).
  rewrite (sumn_ext (noa d) _ (fun k => d2 true (fun p q => anti_aa I p k q k + sumn (nua d) (fun a => t1 T true a k * anti_aa I p k q (noa d + a)%nat)) p q)) by (intros; now apply (d4_right true true)).
  rewrite (sumn_ext (nob d) _ (fun k => d2 true (fun p q => w_ab I p k q k + sumn (nub d) (fun a => t1 T false a k * w_ab I p k q (nob d + a)%nat)) p q)) by (intros; now apply (d4_right true false)).
  rewrite <- !d2_sum, <- !d2_plus. apply d2_ext; intros x y. unfold Ga, fock_a, anti_aa, FockDress.t1. rewrite !sumn_plus.
  rewrite (sumn_ext (noa d) (fun k => sumn (nua d) _) (fun k => sumn (nua d) (fun a => (w_aa I x k y (noa d + a)%nat - w_aa I x k (noa d + a)%nat y) * x_a T a k))) by (intros; apply sumn_ext; intros; ring).
  rewrite (sumn_ext (nob d) (fun k => sumn (nub d) _) (fun k => sumn (nub d) (fun a => w_ab I x k y (nob d + a)%nat * x_b T a k))) by (intros; apply sumn_ext; intros; ring). ring.
Qed.
Lemma fock_dressed_b p q : fock_b (noa d) (nob d) (dressed d T I) p q = d2 false Gb p q.
Proof.
  unfold fock_b. cbn [dressed h_b w_bb w_ab].
  rewrite (sumn_ext (nob d) _ (fun k => d4 false false (anti_bb I) p k q k)) by (intros; apply d4_anti).
  rewrite (sumn_ext (nob d) _ (fun k => d2 false (fun p q => anti_bb I p k q k + sumn (nub d) (fun a => t1 T false a k * anti_bb I p k q (nob d + a)%nat)) p q)) by (intros; now apply (d4_right false false)).
  rewrite (sumn_ext (noa d) _ (fun k => d2 false (fun p q => w_ab I k p k q + sumn (nua d) (fun a => t1 T true a k * w_ab I k p (noa d + a)%nat q)) p q)) by (intros; now apply (d4_left true false)).
  rewrite <- !d2_sum, <- !d2_plus. apply d2_ext; intros x y. unfold Gb, fock_b, anti_bb, FockDress.t1. rewrite !sumn_plus.
  rewrite (sumn_ext (nob d) (fun k => sumn (nub d) _) (fun k => sumn (nub d) (fun a => (w_bb I x k y (nob d + a)%nat - w_bb I x k (nob d + a)%nat y) * x_b T a k))) by (intros; apply sumn_ext; intros; ring).
  rewrite (sumn_ext (noa d) (fun k => sumn (nua d) _) (fun k => sumn (nua d) (fun a => w_ab I k x (noa d + a)%nat y * x_a T a k))) by (intros; apply sumn_ext; intros; ring). ring.
Qed.

(** * Arrays by number *)
Notation H' := (fock_ints (noa d) (nob d) (dressed d T I)).
Definition axes (k : nat) : option (list nat) :=
  match k with
  | 0 => Some [1; 0] | 1 => Some [3; 2] | 2 => Some [1; 1; 0; 0] | 3 => Some [1; 3; 0; 2] | 4 => Some [3; 3; 2; 2] | 5 | 6 | 7 | 8 => None
  | _ => if k <? 17 then let s := k <? 13 in Some [cls s (bit2 (k - 9) 2); cls s (bit2 (k - 9) 1)]
         else if k <? 65 then let s1 := k <? 49 in let s2 := k <? 33 in let j := (k - 17)%nat in Some [cls s1 (bit2 j 8); cls s2 (bit2 j 4); cls s1 (bit2 j 2); cls s2 (bit2 j 1)] else None
  end%nat.
Lemma inr4 dim v z ix a b c e : inrange dim v z ix [a; b; c; e] -> exists x y u t, ix = [x; y; u; t] /\ (x < z /\ v x < dim a)%nat /\ (y < z /\ v y < dim b)%nat /\ (u < z /\ v u < dim c)%nat /\ (t < z /\ v t < dim e)%nat.
Proof. intros K. inversion K as [|x ? ? ? H1 K1]; subst. inversion K1 as [|y ? ? ? H2 K2]; subst. inversion K2 as [|u ? ? ? H3 K3]; subst. inversion K3 as [|t ? ? ? H4 K4]; subst. inversion K4; subst. exists x, y, u, t. tauto. Qed.
Lemma inr2 dim v z ix a b : inrange dim v z ix [a; b] -> exists x y, ix = [x; y] /\ (x < z /\ v x < dim a)%nat /\ (y < z /\ v y < dim b)%nat.
Proof. intros K. inversion K as [|x ? ? ? H1 K1]; subst. inversion K1 as [|y ? ? ? H2 K2]; subst. inversion K2; subst. exists x, y. tauto. Qed.

Lemma sub_aa a b c e z v : Forall (aok v z) [a; b; c; e] -> map (fun '(cr, s, _, _) => (cr, s)) [a; b; c; e] = [(true, true); (true, true); (false, true); (false, true)] ->
  dn (dress (leaf2 17) [a; b; c; e] z []) v = anti_aa (dressed d T I) (pos v a) (pos v b) (pos v c) (pos v e).
Proof.
  intros HA HS. rewrite anti_dressed_a, (dress_ok _ _ _ leaf_aa) by assumption. destruct a as [[[? ?] ?] ?], b as [[[? ?] ?] ?], c as [[[? ?] ?] ?], e as [[[? ?] ?] ?]. cbn [map] in HS. injection HS as -> -> -> -> -> -> -> ->. reflexivity.
Qed.
Lemma sub_bb a b c e z v : Forall (aok v z) [a; b; c; e] -> map (fun '(cr, s, _, _) => (cr, s)) [a; b; c; e] = [(true, false); (true, false); (false, false); (false, false)] ->
  dn (dress (leaf2 49) [a; b; c; e] z []) v = anti_bb (dressed d T I) (pos v a) (pos v b) (pos v c) (pos v e).
Proof.
  intros HA HS. rewrite anti_dressed_b, (dress_ok _ _ _ leaf_bb) by assumption. destruct a as [[[? ?] ?] ?], b as [[[? ?] ?] ?], c as [[[? ?] ?] ?], e as [[[? ?] ?] ?]. cbn [map] in HS. injection HS as -> -> -> -> -> -> -> ->. reflexivity.
Qed.
Lemma sub_ab a b c e z v : Forall (aok v z) [a; b; c; e] -> map (fun '(cr, s, _, _) => (cr, s)) [a; b; c; e] = [(true, true); (true, false); (false, true); (false, false)] ->
  dn (dress (leaf2 33) [a; b; c; e] z []) v = w_ab (dressed d T I) (pos v a) (pos v b) (pos v c) (pos v e).
Proof.
  intros HA HS. rewrite (dress_ok _ _ _ leaf_ab) by assumption. destruct a as [[[? ?] ?] ?], b as [[[? ?] ?] ?], c as [[[? ?] ?] ?], e as [[[? ?] ?] ?]. cbn [map] in HS. injection HS as -> -> -> -> -> -> -> ->. reflexivity.
Qed.
Lemma sub_a a b z v : Forall (aok v z) [a; b] -> map (fun '(cr, s, _, _) => (cr, s)) [a; b] = [(true, true); (false, true)] ->
  dn (dress (leaf1 true) [a; b] z []) v = fock_a (noa d) (nob d) (dressed d T I) (pos v a) (pos v b).
Proof.
  intros HA HS. rewrite fock_dressed_a, (dress_ok _ _ _ leaf_a) by assumption. destruct a as [[[? ?] ?] ?], b as [[[? ?] ?] ?]. cbn [map] in HS. injection HS as -> -> -> ->. reflexivity.
Qed.
Lemma sub_b a b z v : Forall (aok v z) [a; b] -> map (fun '(cr, s, _, _) => (cr, s)) [a; b] = [(true, false); (false, false)] ->
  dn (dress (leaf1 false) [a; b] z []) v = fock_b (noa d) (nob d) (dressed d T I) (pos v a) (pos v b).
Proof.
  intros HA HS. rewrite fock_dressed_b, (dress_ok _ _ _ leaf_b) by assumption. destruct a as [[[? ?] ?] ?], b as [[[? ?] ?] ?]. cbn [map] in HS. injection HS as -> -> -> ->. reflexivity.
Qed.
Ltac axok := repeat apply Forall_cons; try apply Forall_nil; unfold aok; (split; [lia|assumption]).
Ltac fin4 L a b := let K := fresh "K" in intros K; apply inr4 in K as (?x & ?y & ?u & ?t & -> & ? & ? & ? & ?);
  match goal with |- den _ _ (sub ?k ?z [?x; ?y; ?u; ?t]) ?v = _ =>
   let k1 := eval vm_compute in (bit2 (k - 17) 8) in let k2 := eval vm_compute in (bit2 (k - 17) 4) in let k3 := eval vm_compute in (bit2 (k - 17) 2) in let k4 := eval vm_compute in (bit2 (k - 17) 1) in
   exact (L (true, a, k1, x) (true, b, k2, y) (false, a, k3, u) (false, b, k4, t) z v ltac:(axok) eq_refl) end.
Ltac fin2 L a := let K := fresh "K" in intros K; apply inr2 in K as (?x & ?y & -> & ? & ?);
  match goal with |- den _ _ (sub ?k ?z [?x; ?y]) ?v = _ =>
   let k1 := eval vm_compute in (bit2 (k - 9) 2) in let k2 := eval vm_compute in (bit2 (k - 9) 1) in
   exact (L (true, a, k1, x) (false, a, k2, y) z v ltac:(axok) eq_refl) end.
Lemma sub_ok k cs z v ix : axes k = Some cs -> inrange (fdim d) v z ix cs -> dn (sub k z ix) v = ften H' (bare T) k (map v ix).
Proof.
  intros E. assert (L : (k < 65)%nat).
  { do 65 (destruct k as [|k]; [lia|]). exfalso. revert E. unfold axes. cbn [Nat.ltb Nat.leb]. discriminate. }
  do 5 (destruct k as [|k]; [injection E as <-; intros K; (apply inr2 in K as (? & ? & -> & _) || apply inr4 in K as (? & ? & ? & ? & -> & _)); cbv [sub Nat.ltb Nat.leb]; cbn [den]; rewrite ?Rdiv_0_l; try reflexivity; unfold Rdiv; rewrite Rmult_0_l; reflexivity|]).
  do 4 (destruct k as [|k]; [discriminate|]).
  do 4 (destruct k as [|k]; [injection E as <-; fin2 sub_a true|]).
  do 4 (destruct k as [|k]; [injection E as <-; fin2 sub_b false|]).
  do 16 (destruct k as [|k]; [injection E as <-; fin4 sub_aa true true|]).
  do 16 (destruct k as [|k]; [injection E as <-; fin4 sub_ab true false|]).
  do 16 (destruct k as [|k]; [injection E as <-; fin4 sub_bb false false|]).
  exfalso. clear - L. lia.
Qed.
End D.
