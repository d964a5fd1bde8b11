(** A faster evaluation of reference expectation values (proof support): the strings are contracted one operator at a time, and after every step the terms are
    brought to a common form and added up, so that contractions that differ only by the names of summed labels or by a symmetry of an array are done once. *)
From Coq Require Import Reals Arith NArith List Bool Lia Lra QArith Qreals ZArith Permutation FunctionalExtensionality.
From Verif Require Import RSum TensorAlg FockSpec FockCar FockWick.
Import ListNotations.
Local Open Scope nat_scope.

(** * Comparison *)
Definition opl (o : op) : list nat := [if o_d o then 1 else 0; o_c o; o_x o].
Lemma opl_inj a b : opl a = opl b -> a = b.
Proof. destruct a as [d c x], b as [d' c' x']. unfold opl. cbn. destruct d, d'; intros [= -> ->]; reflexivity. Qed.
Fixpoint cmpp (a b : list (nat * nat)) : comparison :=
  match a, b with
  | [], [] => Eq | [], _ => Lt | _, [] => Gt
  | (x, y) :: a', (x', y') :: b' => match Nat.compare x x' with Eq => match Nat.compare y y' with Eq => cmpp a' b' | c => c end | c => c end
  end.
Fixpoint cmpfs (a b : list (nat * list nat)) : comparison :=
  match a, b with
  | [], [] => Eq | [], _ => Lt | _, [] => Gt
  | (x, y) :: a', (x', y') :: b' => match cmpl y y' with Eq => match cmpfs a' b' with Eq => Nat.compare x x' | c => c end | c => c end
  end.
Fixpoint cmpo (a b : list op) : comparison :=
  match a, b with
  | [], [] => Eq | [], _ => Lt | _, [] => Gt
  | x :: a', y :: b' => match cmpl (opl x) (opl y) with Eq => cmpo a' b' | c => c end
  end.
Definition cmpt (a b : term) : comparison :=
  match cmpfs (t_f a) (t_f b) with Eq => match cmpo (t_o a) (t_o b) with Eq => cmpp (t_l a) (t_l b) | c => c end | c => c end.
Lemma cmpp_eq a : forall b, cmpp a b = Eq -> a = b.
Proof.
  induction a as [|[x y] a IH]; intros [|[x' y'] b]; cbn [cmpp]; try discriminate; [reflexivity|].
  destruct (Nat.compare_spec x x'); try discriminate. destruct (Nat.compare_spec y y'); try discriminate. intros E. subst. now rewrite (IH b E).
Qed.
Lemma cmpfs_eq a : forall b, cmpfs a b = Eq -> a = b.
Proof.
  induction a as [|[x y] a IH]; intros [|[x' y'] b]; cbn [cmpfs]; try discriminate; [reflexivity|].
  destruct (cmpl y y') eqn:E1; try discriminate. destruct (cmpfs a b) eqn:E2; try discriminate. intros E. apply Nat.compare_eq in E. apply cmpl_eq in E1. subst. now rewrite (IH b E2).
Qed.
Lemma cmpo_eq a : forall b, cmpo a b = Eq -> a = b.
Proof.
  induction a as [|x a IH]; intros [|y b]; cbn [cmpo]; try discriminate; [reflexivity|].
  destruct (cmpl (opl x) (opl y)) eqn:E1; try discriminate. intros E. apply cmpl_eq, opl_inj in E1. subst. now rewrite (IH b E).
Qed.
Lemma cmpt_eq a b : cmpt a b = Eq -> t_f a = t_f b /\ t_o a = t_o b /\ t_l a = t_l b.
Proof.
  unfold cmpt. destruct (cmpfs (t_f a) (t_f b)) eqn:E1; try discriminate. destruct (cmpo (t_o a) (t_o b)) eqn:E2; try discriminate. intros E3.
  now apply cmpfs_eq in E1; apply cmpo_eq in E2; apply cmpp_eq in E3.
Qed.

(** * One contraction *)
Definition reno (r : nat -> nat) (o : op) : op := mkOp (o_d o) (o_c o) (r (o_x o)).
Definition contract (ext : list (nat * nat)) (t : term) (x : nat) (p : bool * nat * list op) : option term :=
  let '(s, y, rest) := p in
  let c := if s then t_c t else Qopp (t_c t) in
  if Nat.eqb x y then None else if negb (same_class ext (t_l t) x y) then None
  else if mem x (names (t_l t)) then Some (mkTerm c (drop x (t_l t)) (renf (one_ren x y) (t_f t)) (map (reno (one_ren x y)) rest))
  else if mem y (names (t_l t)) then Some (mkTerm c (drop y (t_l t)) (renf (one_ren y x) (t_f t)) (map (reno (one_ren y x)) rest))
  else None.
(** the last operator that has to be contracted: operators before it (reversed), it, operators after it *)
Fixpoint lastq (pre l : list op) : option (list op * op * list op) :=
  match l with
  | [] => None
  | o :: r => match lastq (o :: pre) r with Some z => Some z | None => if qann o then Some (pre, o, r) else None end
  end.
Definition step (ext : list (nat * nat)) (t : term) : option (list term) :=
  match t_o t with
  | [] => Some [t]
  | _ => match lastq [] (t_o t) with Some (pre, o, r) => seqo (map (contract ext t (o_x o)) (picks o pre true r)) | None => Some [] end
  end.

(** * The common form: summed labels numbered by their place in the string, then in the factors; factors by the symmetries of the arrays *)
Fixpoint dedup (l acc : list nat) : list nat := match l with [] => rev acc | x :: r => if mem x acc then dedup r acc else dedup r (x :: acc) end.
Fixpoint insp (a : nat * nat) (l : list (nat * nat)) : list (nat * nat) :=
  match l with [] => [a] | b :: r => if Nat.leb (fst a) (fst b) then a :: l else b :: insp a r end.
Definition sortp (l : list (nat * nat)) : list (nat * nat) := fold_right insp [] l.
Section N.
Variable sym : nat -> list (nat * list nat * bool).
Definition norm_by (ns : list nat) (t : term) : term :=
  let r := rho ns in
  let '(fs, s) := canfs sym (renf r (t_f t)) in
  mkTerm (if s then t_c t else Qopp (t_c t)) (sortp (renl r (t_l t))) fs (map (reno r) (t_o t)).
Definition norm0 (t : term) : option term :=
  let bn := names (t_l t) in
  let all := map o_x (t_o t) ++ fvars (t_f t) in
  let ns := dedup (filter (fun x => mem x bn) all) [] in
  if nodupb bn && forallb (fun y => mem y bn || Nat.ltb y base) all && Nat.eqb (length ns) (length bn) then Some (norm_by ns t) else None.
Definition norm (t : term) : option term :=
  let ns := dedup (filter (Nat.leb base) (map o_x (t_o t) ++ fvars (t_f t))) [] in
  if Nat.eqb (length ns) (length (t_l t)) then Some (norm_by ns t) else None.
Fixpoint insert (t : term) (l : list term) : list term :=
  match l with
  | [] => [t]
  | u :: r => match cmpt t u with
              | Eq => let c := Qred (t_c t + t_c u) in if Qeq_bool c 0 then r else mkTerm c (t_l u) (t_f u) (t_o u) :: r
              | Lt => t :: l
              | Gt => u :: insert t r
              end
  end.
Fixpoint addall (ts acc : list term) : option (list term) :=
  match ts with [] => Some acc | t :: r => match norm t with Some t' => addall r (insert t' acc) | None => None end end.
Fixpoint steps (ext : list (nat * nat)) (ts acc : list term) : option (list term) :=
  match ts with
  | [] => Some acc
  | t :: r => match step ext t with Some us => match addall us acc with Some acc' => steps ext r acc' | None => None end | None => None end
  end.
Fixpoint eval (ext : list (nat * nat)) (n : nat) (ts : list term) : option (list term) :=
  match n with O => Some ts | S n => match steps ext ts [] with Some us => eval ext n us | None => None end end.
Definition monos (ts : list term) : option (list mono) := seqo (map (fun t => match t_o t with [] => Some (mkMono (t_c t) (t_l t) (t_f t)) | _ => None end) ts).
Definition fast1 (ext : list (nat * nat)) (t : term) : option (list mono) :=
  if balanced (t_o t) then
    if okterm ext t then match match norm0 t with Some u => eval ext (Nat.div2 (length (t_o t))) [u] | None => None end with Some us => monos us | None => None end else None
  else if okterm ext t then Some [] else None.
Fixpoint fasts (ext : list (nat * nat)) (p : list term) : option (list mono) :=
  match p with [] => Some [] | t :: r => match fast1 ext t, fasts ext r with Some a, Some b => Some (a ++ b) | _, _ => None end end.
End N.

(** * Normal order: operators that annihilate the reference to the right, and a fixed order among the others *)
Definition okey (o : op) : nat := (if qann o then 4 else 0) + o_c o.
Fixpoint unsorted (pre l : list op) : option (list op * op * op * list op) :=
  match l with
  | o :: ((o' :: r) as l') => if Nat.ltb (okey o') (okey o) then Some (rev pre, o, o', r) else unsorted (o :: pre) l'
  | _ => None
  end.
Definition swap (t : term) : option (list term) :=
  match unsorted [] (t_o t) with
  | None => Some [t]
  | Some (a, o, o', r) =>
    let u := mkTerm (Qopp (t_c t)) (t_l t) (t_f t) (a ++ o' :: o :: r) in
    if cmatch o o' then match contract [] t (o_x o) (true, o_x o', a ++ r) with Some w => Some [w; u] | None => None end else Some [u]
  end.
Section X.
Variable sym : nat -> list (nat * list nat * bool).
Fixpoint swaps (ts acc : list term) : option (list term) :=
  match ts with
  | [] => Some acc
  | t :: r => match swap t with Some us => match addall sym us acc with Some acc' => swaps r acc' | None => None end | None => None end
  end.
Fixpoint nord (n : nat) (ts : list term) : option (list term) :=
  match n with O => Some ts | S n => match swaps ts [] with Some us => nord n us | None => None end end.
End X.
Definition smallb (ext : list (nat * nat)) : bool := forallb (fun z => Nat.ltb (fst z) base) ext.
Definition fock_fast (tab : list (list (nat * list nat * bool))) (ext : list (nat * nat)) (p : list term) (e : ex) : bool :=
  smallb ext && match fasts (fun k => nth k tab []) ext p, nf (EOpp e) with
  | Some ms, Some q => match table (fun k => nth k tab []) (fun x => x) [0; 1; 2; 3]%nat (ms ++ q) with Some t => zerot t | None => false end
  | _, _ => false
  end.

(** * Soundness *)
Local Open Scope R_scope.
Lemma dedup_ok l : forall acc, NoDup acc -> NoDup (dedup l acc) /\ (forall x, In x (dedup l acc) <-> In x l \/ In x acc).
Proof.
  induction l as [|x l IH]; intros acc ND; cbn [dedup].
  - split; [now apply NoDup_rev|]. intros y. rewrite <- in_rev. cbn [In]. tauto.
  - destruct (mem x acc) eqn:M.
    + destruct (IH acc ND) as (A & B). split; [exact A|]. intros y. rewrite B. cbn [In]. apply mem_in in M. intuition congruence.
    + destruct (IH (x :: acc)) as (A & B).
      { constructor; [|exact ND]. intros C. apply mem_in in C. congruence. }
      split; [exact A|]. intros y. rewrite B. cbn [In]. tauto.
Qed.
Lemma insp_perm a l : Permutation (a :: l) (insp a l).
Proof.
  induction l as [|b l IH]; cbn [insp]; [apply Permutation_refl|]. destruct (Nat.leb (fst a) (fst b)); [apply Permutation_refl|].
  eapply perm_trans; [apply perm_swap|]. now apply perm_skip.
Qed.
Lemma sortp_perm l : Permutation l (sortp l).
Proof. induction l as [|a l IH]; cbn [sortp fold_right]; [constructor|]. eapply perm_trans; [apply perm_skip; exact IH|]. apply insp_perm. Qed.

Section S.
Variables (na nb : nat) (dim : nat -> nat) (ten : nat -> list nat -> R).
Hypothesis dim0 : dim 0%nat = na.
Hypothesis dim2 : dim 2%nat = nb.
Notation ref := (reference na nb).
Notation vac := (pure (reference na nb)).
Notation ssum := (ssum dim).
Notation opsem := (opsem na nb).
Notation prodf := (prodf ten).
Notation tsem := (tsem na nb dim ten).

Lemma ssum_perm l l' g : Permutation l l' -> NoDup (names l) -> forall v, ssum l g v = ssum l' g v.
Proof.
  intros P. induction P as [|[x d] l l' P IH|[x d] [y e] l|l l' l'' P1 IH1 P2 IH2]; cbn [FockWick.ssum]; intros ND v.
  - reflexivity.
  - apply sumn_ext. intros i _. apply IH. now inversion ND.
  - rewrite sumn_swap. apply sumn_ext. intros i _. apply sumn_ext. intros j _. f_equal. apply functional_extensionality. intros z. unfold upd.
    destruct (Nat.eqb_spec z x), (Nat.eqb_spec z y); try reflexivity. subst. subst. inversion ND as [|? ? H _]. exfalso. apply H. now left.
  - rewrite IH1 by exact ND. apply IH2. unfold names. apply (Permutation_NoDup (l := names l)); [now apply Permutation_map|exact ND].
Qed.
Lemma ssum_delta ext l x y g v : ext_ok dim ext v -> NoDup (names l) -> x <> y -> same_class ext l x y = true -> In x (names l) ->
  ssum l (fun w => dl w x y * g w) v = ssum (drop x l) (fun w => g (upd w x (w y))) v.
Proof.
  intros HE ND N SC Hx. unfold same_class in SC. destruct (look x (l ++ ext)) as [d|] eqn:Lx; [|discriminate]. destruct (look y (l ++ ext)) as [d'|] eqn:Ly; [|discriminate].
  apply Nat.eqb_eq in SC. subst d'. rewrite look_app in Lx. destruct (look x l) as [dx|] eqn:Lxl; [|exfalso; now apply (look_none _ _ Lxl)].
  injection Lx as ->. assert (Hin := look_in _ _ _ Lxl). rewrite (ssum_perm _ _ _ (drop_perm x d l ND Hin) ND). rewrite ssum_app.
  apply ssum_ext. intros w W1 W2. cbn [FockWick.ssum].
  assert (Wy : (w y < dim d)%nat).
  { rewrite look_app in Ly. destruct (look y l) as [dy|] eqn:Lyl.
    - injection Ly as ->. apply W2; [|now apply drop_nodup]. apply look_in. rewrite drop_look by auto. exact Lyl.
    - rewrite W1; [apply HE; now apply look_in|]. intros C. apply drop_names in C as (C & _). now apply (look_none _ _ Lyl). }
  rewrite (sumn_ext _ _ (fun i => if Nat.eqb i (w y) then g (upd w x i) else 0)).
  - now rewrite sumn_delta_f.
  - intros i _. unfold dl, upd at 1 2. rewrite Nat.eqb_refl. replace (Nat.eqb y x) with false by (symmetry; apply Nat.eqb_neq; auto). destruct (Nat.eqb i (w y)); ring.
Qed.
Lemma prodf_ren r f w : prodf (renf r f) w = prodf f (fun z => w (r z)).
Proof. induction f as [|[k ix] f IH]; cbn [TensorAlg.prodf renf map fst snd]; [reflexivity|]. fold (renf r f). rewrite IH, map_map. reflexivity. Qed.
Lemma opsem_ren r l w psi : opsem (map (reno r) l) w psi = opsem l (fun z => w (r z)) psi.
Proof. induction l as [|o l IH]; cbn [FockWick.opsem map]; [reflexivity|]. rewrite IH. reflexivity. Qed.
Lemma upd_one w x y : (fun z => w (one_ren x y z)) = upd w x (w y).
Proof. apply functional_extensionality. intros z. unfold one_ren, upd. destruct (Nat.eqb z x); reflexivity. Qed.

(** What every term keeps *)
Record kept (ext : list (nat * nat)) (t : term) : Prop := mkKept {
  k_nd : NoDup (names (t_l t));
  k_ge : forall x, In x (names (t_l t)) -> (base <= x)%nat;
  k_cl : forall y, In y (map o_x (t_o t) ++ fvars (t_f t)) -> In y (names (t_l t)) \/ (y < base)%nat;
  k_op : forall o, In o (t_o t) -> (o_c o < 4)%nat /\ look (o_x o) (t_l t ++ ext) = Some (o_c o) }.
Definition small (ext : list (nat * nat)) : Prop := forall x, In x (names ext) -> (x < base)%nat.

Lemma kept_inr ext t v w : ext_ok dim ext v -> kept ext t -> (forall y, ~ In y (names (t_l t)) -> w y = v y) ->
  (forall x d, In (x, d) (t_l t) -> NoDup (names (t_l t)) -> (w x < dim d)%nat) -> Forall (inr dim w) (t_o t).
Proof.
  intros HE K W1 W2. apply Forall_forall. intros o Ho. destruct (k_op _ _ K o Ho) as (H4 & H5). split; [exact H4|].
  rewrite look_app in H5. destruct (look (o_x o) (t_l t)) as [d|] eqn:L.
  - injection H5 as ->. apply W2; [now apply look_in|apply (k_nd _ _ K)].
  - rewrite W1 by (now apply look_none). apply HE. now apply look_in.
Qed.

Lemma fvars_ren r f : fvars (renf r f) = map r (fvars f).
Proof. unfold fvars, renf. induction f as [|[k ix] f IH]; cbn [map flat_map fst snd]; [reflexivity|]. rewrite map_app, IH. reflexivity. Qed.
Lemma ops_ren r l : map o_x (map (reno r) l) = map r (map o_x l).
Proof. rewrite !map_map. reflexivity. Qed.

(** One contraction *)
Lemma contract_one ext t x y rest (s : bool) psi D v : ext_ok dim ext v -> kept ext t -> x <> y -> same_class ext (t_l t) x y = true -> In x (names (t_l t)) ->
  tsem (mkTerm (if s then t_c t else Qopp (t_c t)) (drop x (t_l t)) (renf (one_ren x y) (t_f t)) (map (reno (one_ren x y)) rest)) v psi D =
  Q2R (t_c t) * ssum (t_l t) (fun w => prodf (t_f t) w * (sgn s * dl w x y * opsem rest w psi D)) v.
Proof.
  intros HE K N SC Hx.
  rewrite (ssum_ext dim (t_l t) _ (fun w => dl w x y * (sgn s * (prodf (t_f t) w * opsem rest w psi D)))) by (intros; ring).
  rewrite (ssum_delta ext (t_l t) x y _ v HE (k_nd _ _ K) N SC Hx). unfold FockWick.tsem. cbn [t_c t_l t_f t_o].
  rewrite ssum_scal. replace (Q2R (if s then t_c t else (- t_c t)%Q)) with (sgn s * Q2R (t_c t)) by (destruct s; [change (sgn true) with 1; ring|rewrite Q2R_opp; change (sgn false) with (-1); ring]).
  rewrite <- Rmult_assoc, (Rmult_comm (Q2R (t_c t)) (sgn s)). f_equal. apply ssum_ext. intros w _ _. rewrite prodf_ren, opsem_ren, upd_one. reflexivity.
Qed.
Lemma contract_kept1 ext t x y rest c : kept ext t -> x <> y -> same_class ext (t_l t) x y = true -> In x (names (t_l t)) -> incl rest (t_o t) -> In y (map o_x (t_o t)) ->
  kept ext (mkTerm c (drop x (t_l t)) (renf (one_ren x y) (t_f t)) (map (reno (one_ren x y)) rest)).
Proof.
  intros K N SC Hx Hr Hy. assert (Cy : In y (names (t_l t)) \/ (y < base)%nat) by (apply (k_cl _ _ K), in_or_app; now left).
  split; cbn [t_c t_l t_f t_o].
  - apply drop_nodup, (k_nd _ _ K).
  - intros z Hz. apply drop_names in Hz as (Hz & _). now apply (k_ge _ _ K).
  - intros z Hz. rewrite fvars_ren, ops_ren, <- map_app in Hz. apply in_map_iff in Hz as (u & <- & Hu). unfold one_ren. destruct (Nat.eqb_spec u x) as [->|NE].
    + destruct Cy as [Cy|Cy]; [left; apply drop_names; auto|now right].
    + assert (Cu : In u (names (t_l t)) \/ (u < base)%nat).
      { apply (k_cl _ _ K). apply in_app_or in Hu as [Hu|Hu]; apply in_or_app; [left|now right]. apply in_map_iff in Hu as (o & <- & Ho). now apply in_map, Hr. }
      destruct Cu as [Cu|Cu]; [left; apply drop_names; auto|now right].
  - intros o Ho. apply in_map_iff in Ho as (o' & <- & Ho'). destruct (k_op _ _ K o' (Hr _ Ho')) as (H1 & H2). cbn [reno o_c o_x]. split; [exact H1|].
    unfold one_ren. destruct (Nat.eqb_spec (o_x o') x) as [E|NE].
    + rewrite look_app, drop_look, <- look_app by auto. rewrite E in H2. unfold same_class in SC. rewrite H2 in SC. destruct (look y (t_l t ++ ext)); [|discriminate]. apply Nat.eqb_eq in SC. now rewrite SC.
    + rewrite look_app, drop_look, <- look_app by auto. exact H2.
Qed.
Lemma dl_sym w x y : dl w x y = dl w y x. Proof. unfold dl. now rewrite Nat.eqb_sym. Qed.
Lemma contract_ok ext t x s y rest t' psi D v : ext_ok dim ext v -> kept ext t -> contract ext t x (s, y, rest) = Some t' ->
  tsem t' v psi D = Q2R (t_c t) * ssum (t_l t) (fun w => prodf (t_f t) w * (sgn s * dl w x y * opsem rest w psi D)) v.
Proof.
  intros HE K H. unfold contract in H. destruct (Nat.eqb_spec x y) as [|N]; [discriminate|]. destruct (same_class ext (t_l t) x y) eqn:SC; cbn [negb] in H; [|discriminate].
  destruct (mem x (names (t_l t))) eqn:Mx.
  - injection H as <-. apply mem_in in Mx. now apply contract_one with (ext := ext).
  - destruct (mem y (names (t_l t))) eqn:My; [|discriminate]. injection H as <-. apply mem_in in My. rewrite same_class_sym in SC.
    rewrite (contract_one ext t y x rest s psi D v HE K (not_eq_sym N) SC My). f_equal. apply ssum_ext. intros w _ _. now rewrite (dl_sym w x y).
Qed.
Lemma contract_kept ext t x s y rest t' : kept ext t -> contract ext t x (s, y, rest) = Some t' -> incl rest (t_o t) -> In x (map o_x (t_o t)) -> In y (map o_x (t_o t)) -> kept ext t'.
Proof.
  intros K H Hr Hx Hy. unfold contract in H. destruct (Nat.eqb_spec x y) as [|N]; [discriminate|]. destruct (same_class ext (t_l t) x y) eqn:SC; cbn [negb] in H; [|discriminate].
  destruct (mem x (names (t_l t))) eqn:Mx.
  - injection H as <-. apply mem_in in Mx. now apply contract_kept1.
  - destruct (mem y (names (t_l t))) eqn:My; [|discriminate]. injection H as <-. apply mem_in in My. rewrite same_class_sym in SC. apply contract_kept1; auto.
Qed.
Lemma lastq_ok l : forall pre a o r, lastq pre l = Some (a, o, r) -> rev pre ++ l = rev a ++ o :: r /\ qann o = true.
Proof.
  induction l as [|x l IH]; intros pre a o r H; cbn [lastq] in H; [discriminate|]. destruct (lastq (x :: pre) l) as [z|] eqn:E.
  - injection H as ->. apply IH in E as (E & Q). split; [|exact Q]. rewrite <- E. cbn [rev]. now rewrite <- app_assoc.
  - destruct (qann x) eqn:Q; [|discriminate]. injection H as <- <- <-. auto.
Qed.
Lemma lastq_none l : forall pre, lastq pre l = None -> forall o, In o l -> qann o = false.
Proof.
  induction l as [|x l IH]; intros pre H o Ho; cbn [lastq] in H; [contradiction|]. destruct (lastq (x :: pre) l) eqn:E; [discriminate|]. destruct (qann x) eqn:Q; [discriminate|].
  destruct Ho as [<-|Ho]; [exact Q|now apply (IH _ E)].
Qed.
Lemma picks_y o r : forall pre s s' y rest, In (s', y, rest) (picks o pre s r) -> In y (map o_x r).
Proof.
  induction r as [|o' r IH]; intros pre s s' y rest H; cbn [picks] in H; [contradiction|]. apply in_app_or in H as [H|H].
  - destruct (cmatch o o'); [|contradiction]. destruct H as [H|[]]. injection H as <- <- <-. now left.
  - right. eapply IH; eassumption.
Qed.
Lemma seqo_lsum {A} (f : A -> option term) (g : A -> R) (h : term -> R) p : forall us, seqo (map f p) = Some us ->
  (forall x u, In x p -> f x = Some u -> g x = h u) -> lsum g p = lsum h us.
Proof.
  induction p as [|x p IH]; cbn [map seqo lsum]; intros us H G; [injection H as <-; reflexivity|].
  destruct (f x) as [m|] eqn:E; [|discriminate]. destruct (seqo (map f p)) as [r|]; [|discriminate]. injection H as <-. cbn [lsum].
  rewrite (G x m (or_introl eq_refl) E). f_equal. apply IH; [reflexivity|]. intros y m0 Hy. apply G. now right.
Qed.
Lemma seqo_in {A} (f : A -> option term) p : forall us, seqo (map f p) = Some us -> forall u, In u us -> exists x, In x p /\ f x = Some u.
Proof.
  induction p as [|x p IH]; cbn [map seqo]; intros us H u Hu; [injection H as <-; contradiction|].
  destruct (f x) as [m|] eqn:E; [|discriminate]. destruct (seqo (map f p)) as [r|]; [|discriminate]. injection H as <-. destruct Hu as [<-|Hu].
  - exists x. split; [now left|exact E].
  - destruct (IH r eq_refl u Hu) as (z & Hz & Ez). exists z. split; [now right|exact Ez].
Qed.
Lemma step_ok ext t us v : ext_ok dim ext v -> kept ext t -> step ext t = Some us -> tsem t v vac ref = lsum (fun u => tsem u v vac ref) us /\ Forall (kept ext) us.
Proof.
  intros HE K H. unfold step in H. destruct (t_o t) as [|o0 r0] eqn:E0.
  { injection H as <-. split; [cbn [lsum]; ring|]. constructor; [exact K|constructor]. }
  rewrite <- E0 in H. destruct (lastq [] (t_o t)) as [[[pre o] r]|] eqn:EL.
  - apply lastq_ok in EL as (EL & Q). cbn [rev app] in EL. split.
    + rewrite <- (seqo_lsum _ (fun p : bool * nat * list op => let '(s, y, rest) := p in Q2R (t_c t) * ssum (t_l t) (fun w => prodf (t_f t) w * (sgn s * dl w (o_x o) y * opsem rest w vac ref)) v) _ _ us H).
      2:{ intros [[s y] rest] u Hin Hu. symmetry. now apply (contract_ok ext t (o_x o) s y rest u). }
      unfold FockWick.tsem. rewrite (lsum_ext _ (fun p : bool * nat * list op => Q2R (t_c t) * ssum (t_l t) (fun w => let '(s, y, rest) := p in prodf (t_f t) w * (sgn s * dl w (o_x o) y * opsem rest w vac ref)) v)) by (intros [[s y] rest] _; reflexivity).
      rewrite lsum_scal, <- (ssum_lsum dim (t_l t) (fun (p : bool * nat * list op) w => let '(s, y, rest) := p in prodf (t_f t) w * (sgn s * dl w (o_x o) y * opsem rest w vac ref))). f_equal.
      apply ssum_ext. intros w W1 W2. assert (F := kept_inr ext t v w HE K W1 W2). rewrite EL in F. apply Forall_app in F as (F1 & F2). assert (F3 := Forall_inv F2). assert (F4 := Forall_inv_tail F2).
      rewrite EL, opsem_app. cbn [FockWick.opsem].
      assert (P := picks_ok na nb dim dim0 dim2 o w ref F3 Q r pre true F4). change (sgn true) with 1 in P. rewrite Rmult_1_l in P. rewrite P, <- lsum_scal.
      apply lsum_ext. intros [[s y] rest] _. reflexivity.
    + apply Forall_forall. intros u Hu. destruct (seqo_in _ _ _ H u Hu) as ([[s y] rest] & Hin & Ec).
      apply (contract_kept ext t (o_x o) s y rest u K Ec).
      * intros z Hz. rewrite EL. destruct (picks_sub _ _ _ _ _ _ _ Hin z Hz) as [G|G]; apply in_or_app; [left; now apply -> in_rev|right; now right].
      * rewrite EL, map_app. apply in_or_app. right. now left.
      * rewrite EL, map_app. apply in_or_app. right. right. now apply (picks_y _ _ _ _ _ _ _ Hin).
  - injection H as <-. split; [|constructor]. cbn [lsum]. unfold FockWick.tsem. rewrite (ssum_ext dim (t_l t) _ (fun _ => 0)); [rewrite ssum_zero; ring|].
    intros w W1 W2. assert (F := kept_inr ext t v w HE K W1 W2). assert (Q := lastq_none _ _ EL o0). rewrite E0 in F, Q |- *. cbn [FockWick.opsem].
    rewrite (ap_bra na nb dim dim0 dim2 o0 w _ (Forall_inv F) (Q (or_introl eq_refl))). ring.
Qed.

(** The common form *)
Variable sym : nat -> list (nat * list nat * bool).
Hypothesis sym_ok : forall k k' p s, In (k', p, s) (sym k) -> forall ix, length ix = length p -> ten k ix = sgn s * ten k' (pick p ix).
Hypothesis sym_len : forall k k' p s, In (k', p, s) (sym k) -> forall j, In j p -> (j < length p)%nat.
Lemma ssum_rename r l vs (G : (nat -> nat) -> R) : (forall w w', (forall y, In y vs -> w y = w' y) -> G w = G w') ->
  (forall x y, In x (names l) -> In y vs -> r x = r y -> x = y) ->
  forall v w, (forall y, In y vs -> ~ In y (names l) -> v (r y) = w y) -> ssum (renl r l) (fun u => G (fun z => u (r z))) v = ssum l G w.
Proof.
  intros HG. induction l as [|[x d] l IH]; cbn [FockWick.ssum renl map fst snd names]; intros Inj v w H.
  - apply HG. intros y Hy. now apply H.
  - apply sumn_ext. intros i _. apply IH.
    + intros x0 y Hx. apply Inj. now right.
    + intros y Hy Hn. unfold upd. destruct (Nat.eqb_spec y x).
      * subst. now rewrite Nat.eqb_refl.
      * destruct (Nat.eqb_spec (r y) (r x)) as [E|E].
        -- exfalso. apply n. symmetry. apply Inj; auto. now left.
        -- apply H; [exact Hy|]. intros [C|C]; [now symmetry in C|contradiction].
Qed.
Lemma best_vars ix alts : (forall k' p s, In (k', p, s) alts -> forall j, In j p -> (j < length p)%nat) -> forall cur, incl (snd (fst cur)) ix -> incl (snd (fst (best ix cur alts))) ix.
Proof.
  induction alts as [|[[k' p] s] alts IH]; intros HL cur Hc; cbn [best]; [exact Hc|].
  assert (HL' : forall k' p s, In (k', p, s) alts -> forall j, In j p -> (j < length p)%nat) by (intros ? ? ? Hin; apply (HL _ _ _ (or_intror Hin))).
  destruct (Nat.eqb_spec (length ix) (length p)) as [E|]; [|now apply IH].
  assert (Hp : incl (pick p ix) ix).
  { intros z Hz. unfold pick in Hz. apply in_map_iff in Hz as (j & <- & Hj). apply nth_In. rewrite E. apply (HL k' p s); [now left|exact Hj]. }
  destruct (cmpf (k', pick p ix) (fst cur)); apply IH; auto.
Qed.
Lemma canfs_vars f : incl (fvars (fst (canfs sym f))) (fvars f).
Proof.
  induction f as [|g f IH]; cbn [canfs]; [apply incl_refl|]. assert (B := best_vars (snd g) (sym (fst g)) (sym_len (fst g)) (g, true) (incl_refl _)).
  fold (canf sym g) in B. destruct (canf sym g) as [g' s]. destruct (canfs sym f) as [l s']. cbn [fst snd] in *.
  assert (I : forall l, incl (fvars (insf g' l)) (snd g' ++ fvars l)).
  { clear. induction l as [|h l IH]; cbn [insf]; [unfold fvars; cbn [flat_map]; apply incl_refl|]. destruct (cmpf g' h); try apply incl_refl.
    intros z Hz. change (fvars (h :: insf g' l)) with (snd h ++ fvars (insf g' l)) in Hz. change (fvars (h :: l)) with (snd h ++ fvars l).
    apply in_app_or in Hz as [Hz|Hz]; [apply in_or_app; right; apply in_or_app; now left|]. apply IH in Hz. apply in_app_or in Hz as [Hz|Hz]; apply in_or_app; [now left|right; apply in_or_app; now right]. }
  intros z Hz. apply I in Hz. change (fvars (g :: f)) with (snd g ++ fvars f). apply in_app_or in Hz as [Hz|Hz]; apply in_or_app; [left; now apply B|right; now apply IH].
Qed.
Lemma rho_in ns x : In x ns -> (base <= rho ns x)%nat.
Proof. intros H. unfold rho. destruct (posn_in x ns H) as (k & -> & _). lia. Qed.
Lemma rho_out ns x : ~ In x ns -> rho ns x = x.
Proof. intros H. unfold rho. now rewrite posn_notin. Qed.
Lemma rho_injn ns x y : In x ns -> In y ns -> rho ns x = rho ns y -> x = y.
Proof.
  intros Hx Hy. unfold rho. destruct (posn_in x ns Hx) as (k & -> & _ & Ek). destruct (posn_in y ns Hy) as (k' & -> & _ & Ek'). intros E. assert (k = k') by lia. subst k'. congruence.
Qed.
Lemma names_renl r l : names (renl r l) = map r (names l).
Proof. unfold names, renl. rewrite !map_map. reflexivity. Qed.
Definition good_ns (ns : list nat) (t : term) : Prop := (forall x, In x ns <-> In x (names (t_l t))) /\ NoDup (names (t_l t)) /\
  (forall y, In y (map o_x (t_o t) ++ fvars (t_f t)) -> In y (names (t_l t)) \/ (y < base)%nat).
Lemma renl_nodup ns l : NoDup (names l) -> (forall x, In x (names l) -> In x ns) -> NoDup (names (renl (rho ns) l)).
Proof.
  rewrite names_renl. intros ND HN. induction (names l) as [|x m IH]; cbn [map]; [constructor|]. apply NoDup_cons_iff in ND as (N1 & N2). constructor.
  - intros C. apply in_map_iff in C as (y & E & Hy). apply rho_injn in E; [subst; contradiction|apply HN; now right|apply HN; now left].
  - apply IH; [exact N2|]. intros y Hy. apply HN. now right.
Qed.
Lemma norm_by_ok ns t v psi D : good_ns ns t -> tsem (norm_by sym ns t) v psi D = tsem t v psi D.
Proof.
  intros (G1 & G2 & G3). unfold norm_by. assert (CF := canfs_ok ten sym sym_ok sym_len (renf (rho ns) (t_f t))). destruct (canfs sym (renf (rho ns) (t_f t))) as [fs s]. cbn [fst snd] in CF.
  unfold FockWick.tsem. cbn [t_c t_l t_f t_o].
  assert (ND := renl_nodup ns (t_l t) G2 (fun x Hx => proj2 (G1 x) Hx)).
  rewrite <- (ssum_perm _ _ _ (sortp_perm (renl (rho ns) (t_l t))) ND v).
  rewrite <- (ssum_rename (rho ns) (t_l t) (map o_x (t_o t) ++ fvars (t_f t)) (fun w => prodf (t_f t) w * opsem (t_o t) w psi D)) with (v := v).
  - replace (Q2R (if s then t_c t else (- t_c t)%Q)) with (sgn s * Q2R (t_c t)) by (destruct s; [change (sgn true) with 1; ring|rewrite Q2R_opp; change (sgn false) with (-1); ring]).
    rewrite (Rmult_comm (sgn s)), Rmult_assoc. f_equal. rewrite <- ssum_scal. apply ssum_ext. intros w _ _.
    rewrite <- (prodf_ren (rho ns) (t_f t) w), (CF w), opsem_ren. ring.
  - intros w w' Hw. rewrite (prodf_agree ten (t_f t) w w') by (intros y Hy; apply Hw, in_or_app; now right).
    rewrite (opsem_agree na nb (t_o t) w w'); [reflexivity|]. intros o Ho. apply Hw, in_or_app. left. now apply in_map.
  - intros x y Hx Hy E. apply G1 in Hx. destruct (in_dec Nat.eq_dec y ns) as [Hi|Hi]; [now apply (rho_injn ns)|].
    rewrite (rho_out ns y Hi) in E. destruct (G3 y Hy) as [C|C]; [apply G1 in C; contradiction|]. apply rho_in in Hx. lia.
  - intros y Hy Hn. rewrite rho_out; [reflexivity|]. intros C. now apply Hn, G1.
Qed.
Lemma norm_by_kept ext ns t : small ext -> good_ns ns t -> (forall o, In o (t_o t) -> (o_c o < 4)%nat /\ look (o_x o) (t_l t ++ ext) = Some (o_c o)) -> kept ext (norm_by sym ns t).
Proof.
  intros HS (G1 & G2 & G3) HO. unfold norm_by. assert (CV := canfs_vars (renf (rho ns) (t_f t))). destruct (canfs sym (renf (rho ns) (t_f t))) as [fs s]. cbn [fst] in CV.
  assert (ND := renl_nodup ns (t_l t) G2 (fun x Hx => proj2 (G1 x) Hx)).
  assert (PN : Permutation (names (renl (rho ns) (t_l t))) (names (sortp (renl (rho ns) (t_l t))))) by (apply Permutation_map, sortp_perm).
  assert (NE : forall z, In z (names (sortp (renl (rho ns) (t_l t)))) <-> exists x, In x (names (t_l t)) /\ rho ns x = z).
  { intros z. split.
    - intros H. apply (Permutation_in _ (Permutation_sym PN)) in H. rewrite names_renl in H. apply in_map_iff in H as (x & E & Hx). now exists x.
    - intros (x & Hx & <-). apply (Permutation_in _ PN). rewrite names_renl. now apply in_map. }
  split; cbn [t_c t_l t_f t_o].
  - now apply (Permutation_NoDup PN).
  - intros z Hz. apply NE in Hz as (x & Hx & <-). apply rho_in. now apply G1.
  - intros z Hz. assert (Hz' : In z (map (rho ns) (map o_x (t_o t) ++ fvars (t_f t)))).
    { rewrite map_app, <- fvars_ren. apply in_app_or in Hz as [Hz|Hz]; apply in_or_app; [left; now rewrite <- ops_ren|right; now apply CV]. }
    apply in_map_iff in Hz' as (y & <- & Hy). destruct (in_dec Nat.eq_dec y ns) as [Hi|Hi].
    + left. apply NE. exists y. split; [now apply G1|reflexivity].
    + right. rewrite rho_out by exact Hi. destruct (G3 y Hy) as [C|C]; [apply G1 in C; contradiction|exact C].
  - intros o Ho. apply in_map_iff in Ho as (o' & <- & Ho'). destruct (HO o' Ho') as (H1 & H2). cbn [reno o_c o_x]. split; [exact H1|].
    rewrite look_app in H2. destruct (look (o_x o') (t_l t)) as [c|] eqn:L.
    + injection H2 as ->. apply look_in in L. rewrite look_app, (look_nodup _ _ (o_c o')); [reflexivity|now apply (Permutation_NoDup PN)|].
      apply (Permutation_in _ (sortp_perm _)). unfold renl. apply in_map_iff. exists (o_x o', o_c o'). auto.
    + assert (NI : ~ In (o_x o') ns) by (intros C; apply G1 in C; now apply (look_none _ _ L)).
      rewrite rho_out, look_app by exact NI. destruct (look (o_x o') (sortp (renl (rho ns) (t_l t)))) eqn:L2; [|exact H2]. exfalso.
      apply look_in in L2. apply (in_map fst) in L2. cbn [fst] in L2. assert (I2 : In (o_x o') (names (sortp (renl (rho ns) (t_l t))))) by exact L2. apply NE in I2 as (x & Hx & Ex).
      apply G1 in Hx. apply rho_in in Hx. apply look_in in H2. apply (in_map fst) in H2. cbn [fst] in H2. specialize (HS _ H2). lia.
Qed.
Lemma norm_good t ext : kept ext t -> length (dedup (filter (Nat.leb base) (map o_x (t_o t) ++ fvars (t_f t))) []) = length (t_l t) ->
  good_ns (dedup (filter (Nat.leb base) (map o_x (t_o t) ++ fvars (t_f t))) []) t.
Proof.
  intros K E. destruct (dedup_ok (filter (Nat.leb base) (map o_x (t_o t) ++ fvars (t_f t))) [] (NoDup_nil _)) as (N & I). set (ns := dedup _ []) in *.
  assert (S : incl ns (names (t_l t))).
  { intros x Hx. apply I in Hx as [Hx|[]]. apply filter_In in Hx as (Hx & L). apply Nat.leb_le in L. destruct (k_cl _ _ K x Hx); [assumption|lia]. }
  split; [|split; [apply (k_nd _ _ K)|apply (k_cl _ _ K)]]. intros x. split; [apply S|].
  assert (S' : incl (names (t_l t)) ns) by (apply NoDup_length_incl; [exact N|unfold names; rewrite map_length; lia|exact S]). apply S'.
Qed.
Lemma norm_ok ext t u : small ext -> kept ext t -> norm sym t = Some u -> kept ext u /\ forall v psi D, tsem u v psi D = tsem t v psi D.
Proof.
  intros HS K H. unfold norm in H. destruct (Nat.eqb_spec (length (dedup (filter (Nat.leb base) (map o_x (t_o t) ++ fvars (t_f t))) [])) (length (t_l t))) as [E|]; [|discriminate].
  injection H as <-. assert (G := norm_good t ext K E). split; [apply norm_by_kept; auto; apply (k_op _ _ K)|]. intros. now apply norm_by_ok.
Qed.
Lemma norm0_ok ext t u : small ext -> okterm ext t = true -> norm0 sym t = Some u -> kept ext u /\ forall v psi D, tsem u v psi D = tsem t v psi D.
Proof.
  intros HS HO H. unfold norm0 in H. set (all := map o_x (t_o t) ++ fvars (t_f t)) in *. set (ns := dedup _ []) in *.
  destruct (nodupb (names (t_l t))) eqn:H1; [|discriminate]. destruct (forallb _ all) eqn:H2; [|discriminate]. destruct (Nat.eqb_spec (length ns) (length (names (t_l t)))) as [E|]; [|discriminate].
  cbn [andb] in H. injection H as <-. apply nodupb_ok in H1. rewrite forallb_forall in H2.
  destruct (dedup_ok (filter (fun x => mem x (names (t_l t))) all) [] (NoDup_nil _)) as (N & I). fold ns in N, I.
  assert (S : incl ns (names (t_l t))).
  { intros x Hx. apply I in Hx as [Hx|[]]. apply filter_In in Hx as (Hx & L). now apply mem_in. }
  assert (S' : incl (names (t_l t)) ns) by (apply NoDup_length_incl; [exact N|lia|exact S]).
  assert (G : good_ns ns t).
  { split; [intros x; split; [apply S|apply S']|split; [exact H1|]]. intros y Hy. specialize (H2 y Hy). apply orb_prop in H2 as [H2|H2]; [left; now apply mem_in|right; now apply Nat.ltb_lt]. }
  split; [|intros; now apply norm_by_ok]. apply norm_by_kept; [exact HS|exact G|]. intros o Ho. apply andb_prop in HO as (_ & HO). rewrite forallb_forall in HO. specialize (HO o Ho). unfold okop in HO.
  apply andb_prop in HO as (O1 & O2). apply Nat.ltb_lt in O1. split; [exact O1|]. destruct (look (o_x o) (t_l t ++ ext)); [|discriminate]. apply Nat.eqb_eq in O2. now subst.
Qed.
Lemma insert_ok t l v psi D : lsum (fun u => tsem u v psi D) (insert t l) = tsem t v psi D + lsum (fun u => tsem u v psi D) l.
Proof.
  induction l as [|u l IH]; cbn [insert lsum]; [reflexivity|]. destruct (cmpt t u) eqn:E; cbn [lsum]; [|reflexivity|rewrite IH; ring].
  apply cmpt_eq in E as (E1 & E2 & E3).
  assert (G : Q2R (Qred (t_c t + t_c u)) * ssum (t_l u) (fun w => prodf (t_f u) w * opsem (t_o u) w psi D) v = tsem t v psi D + tsem u v psi D).
  { unfold FockWick.tsem. rewrite E1, E2, E3, (Qeq_eqR _ _ (Qred_correct _)), Q2R_plus. ring. }
  destruct (Qeq_bool (Qred (t_c t + t_c u)) 0) eqn:Z; cbn [lsum].
  - apply Qeq_bool_eq in Z. apply Qeq_eqR in Z. rewrite Z in G. replace (Q2R 0) with 0 in G by (unfold Q2R; cbn; field). lra.
  - change (FockWick.tsem na nb dim ten (mkTerm (Qred (t_c t + t_c u)) (t_l u) (t_f u) (t_o u)) v psi D) with (Q2R (Qred (t_c t + t_c u)) * ssum (t_l u) (fun w => prodf (t_f u) w * opsem (t_o u) w psi D) v).
    rewrite G. ring.
Qed.
Lemma insert_kept ext t l : kept ext t -> Forall (kept ext) l -> Forall (kept ext) (insert t l).
Proof.
  intros K. induction l as [|u l IH]; cbn [insert]; intros F; [now constructor|]. assert (F1 := Forall_inv F). assert (F2 := Forall_inv_tail F). destruct (cmpt t u).
  - destruct (Qeq_bool _ 0); [exact F2|]. constructor; [|exact F2]. destruct F1 as [A B C0 D0]. now split.
  - now constructor.
  - constructor; [exact F1|now apply IH].
Qed.
Lemma addall_ok ext ts : small ext -> forall acc r, Forall (kept ext) ts -> Forall (kept ext) acc -> addall sym ts acc = Some r ->
  Forall (kept ext) r /\ forall v psi D, lsum (fun u => tsem u v psi D) r = lsum (fun u => tsem u v psi D) ts + lsum (fun u => tsem u v psi D) acc.
Proof.
  intros HS. induction ts as [|t ts IH]; intros acc r F Fa H; cbn [addall] in H.
  - injection H as <-. split; [exact Fa|]. intros. cbn [lsum]. ring.
  - assert (F1 := Forall_inv F). assert (F2 := Forall_inv_tail F). destruct (norm sym t) as [u|] eqn:E; [|discriminate]. destruct (norm_ok ext t u HS F1 E) as (K & S).
    destruct (IH _ _ F2 (insert_kept ext u acc K Fa) H) as (A & B). split; [exact A|]. intros. rewrite B, insert_ok, S. cbn [lsum]. ring.
Qed.
Lemma steps_ok ext v : ext_ok dim ext v -> small ext -> forall ts acc r, Forall (kept ext) ts -> Forall (kept ext) acc -> steps sym ext ts acc = Some r ->
  Forall (kept ext) r /\ lsum (fun u => tsem u v vac ref) r = lsum (fun u => tsem u v vac ref) ts + lsum (fun u => tsem u v vac ref) acc.
Proof.
  intros HE HS. induction ts as [|t ts IH]; intros acc r F Fa H; cbn [steps] in H.
  - injection H as <-. split; [exact Fa|]. cbn [lsum]. ring.
  - assert (F1 := Forall_inv F). assert (F2 := Forall_inv_tail F). destruct (step ext t) as [us|] eqn:E; [|discriminate]. destruct (step_ok ext t us v HE F1 E) as (S & K).
    destruct (addall sym us acc) as [acc'|] eqn:E2; [|discriminate]. destruct (addall_ok ext us HS acc acc' K Fa E2) as (K' & S').
    destruct (IH _ _ F2 K' H) as (A & B). split; [exact A|]. rewrite B, S'. cbn [lsum]. rewrite S. ring.
Qed.
Lemma eval_ok ext v : ext_ok dim ext v -> small ext -> forall n ts r, Forall (kept ext) ts -> eval sym ext n ts = Some r ->
  lsum (fun u => tsem u v vac ref) r = lsum (fun u => tsem u v vac ref) ts.
Proof.
  intros HE HS. induction n as [|n IH]; intros ts r F H; cbn [eval] in H; [now injection H as <-|]. destruct (steps sym ext ts []) as [us|] eqn:E; [|discriminate].
  destruct (steps_ok ext v HE HS ts [] us F (Forall_nil _) E) as (K & S). rewrite (IH us r K H), S. cbn [lsum]. ring.
Qed.
Lemma monos_ok v ts : forall ms, monos ts = Some ms -> lsum (fun u => tsem u v vac ref) ts = pden dim ten ms v.
Proof.
  unfold monos. induction ts as [|t ts IH]; cbn [map seqo lsum]; intros ms H; [injection H as <-; reflexivity|]. destruct (t_o t) eqn:E; [|discriminate].
  destruct (seqo _) as [r|]; [|discriminate]. injection H as <-. cbn [pden]. rewrite <- (IH r eq_refl). f_equal. unfold FockWick.tsem, mden. cbn [m_c m_l m_f]. rewrite E. f_equal.
  rewrite <- (ssum_dsum dim ten). apply ssum_ext. intros w _ _. cbn [FockWick.opsem]. unfold pure. rewrite N.eqb_refl. ring.
Qed.
Lemma fast1_ok ext v t ms : ext_ok dim ext v -> small ext -> fast1 sym ext t = Some ms -> tsem t v vac ref = pden dim ten ms v.
Proof.
  intros HE HS H. unfold fast1 in H. destruct (balanced (t_o t)) eqn:B.
  - destruct (okterm ext t) eqn:O; [|discriminate]. destruct (norm0 sym t) as [u|] eqn:E; [|discriminate]. destruct (norm0_ok ext t u HS O E) as (K & S).
    destruct (eval sym ext _ [u]) as [us|] eqn:E2; [|discriminate]. rewrite <- (monos_ok v us ms H), (eval_ok ext v HE HS _ _ _ (Forall_cons _ K (Forall_nil _)) E2). cbn [lsum]. rewrite S. ring.
  - destruct (okterm ext t) eqn:O; [|discriminate]. injection H as <-. cbn [pden]. unfold FockWick.tsem.
    rewrite (ssum_ext dim (t_l t) _ (fun _ => 0)); [rewrite ssum_zero; ring|]. intros w W1 W2. rewrite (unbalanced_zero na nb dim dim0 dim2); [ring|now apply (okop_inr dim ext t v)|exact B].
Qed.
Lemma fasts_ok ext v : ext_ok dim ext v -> small ext -> forall p ms, fasts sym ext p = Some ms -> psem na nb dim ten p v vac ref = pden dim ten ms v.
Proof.
  intros HE HS. induction p as [|t p IH]; intros ms H; cbn [fasts] in H; [injection H as <-; reflexivity|].
  destruct (fast1 sym ext t) as [a|] eqn:E; [|discriminate]. destruct (fasts sym ext p) as [b|]; [|discriminate]. injection H as <-.
  rewrite pden_app, <- (fast1_ok ext v t a HE HS E), <- (IH b eq_refl). reflexivity.
Qed.

(** Normal order *)
Lemma unsorted_ok l : forall pre a o o' r, unsorted pre l = Some (a, o, o', r) -> rev pre ++ l = a ++ o :: o' :: r.
Proof.
  induction l as [|x l IH]; intros pre a o o' r H; [discriminate|]. cbn [unsorted] in H. destruct l as [|y l]; [discriminate|]. destruct (Nat.ltb (okey y) (okey x)).
  - now injection H as <- <- <- <-.
  - apply IH in H. rewrite <- H. cbn [rev]. now rewrite <- app_assoc.
Qed.
Lemma swap_ok t us v : kept [] t -> swap t = Some us -> Forall (kept []) us /\ forall psi D, tsem t v psi D = lsum (fun u => tsem u v psi D) us.
Proof.
  intros K H. assert (HE : ext_ok dim [] v) by (intros ? ? []). unfold swap in H. destruct (unsorted [] (t_o t)) as [[[[a o] o'] r]|] eqn:E.
  2:{ injection H as <-. split; [now constructor|]. intros. cbn [lsum]. ring. }
  apply unsorted_ok in E. cbn [rev app] in E. set (u := mkTerm (- t_c t)%Q (t_l t) (t_f t) (a ++ o' :: o :: r)) in *.
  assert (Ku : kept [] u).
  { destruct K as [A B C0 D0]. rewrite E in C0, D0. split; cbn [u t_l t_f t_o]; [exact A|exact B| |].
    - intros y Hy. apply C0. rewrite map_app in *. cbn [map] in *. apply in_app_or in Hy as [Hy|Hy]; apply in_or_app; [left|now right]. apply in_app_or in Hy as [Hy|Hy]; apply in_or_app; [now left|right].
      destruct Hy as [Hy|[Hy|Hy]]; [right; now left|now left|right; now right].
    - intros z Hz. apply D0. apply in_app_or in Hz as [Hz|Hz]; apply in_or_app; [now left|right]. destruct Hz as [Hz|[Hz|Hz]]; [right; now left|now left|right; now right]. }
  assert (M : forall w psi D, Forall (inr dim w) (t_o t) -> opsem (t_o t) w psi D = (if cmatch o o' then dl w (o_x o) (o_x o') * opsem (a ++ r) w psi D else 0) - opsem (a ++ o' :: o :: r) w psi D).
  { intros w psi D F. rewrite E in F |- *. apply Forall_app in F as (_ & F). assert (F1 := Forall_inv F). assert (F2 := Forall_inv (Forall_inv_tail F)). rewrite !opsem_app. cbn [FockWick.opsem].
    rewrite (opsem_ext na nb a w _ (fun D => (if cmatch o o' then dl w (o_x o) (o_x o') else 0) * opsem r w psi D + (-1) * ap na nb o' w (ap na nb o w (opsem r w psi)) D)).
    - rewrite opsem_lin. destruct (cmatch o o'); ring.
    - intros D'. rewrite (ap_ap na nb dim dim0 dim2 o o' w _ D' F1 F2). unfold dl. destruct (cmatch o o'); ring. }
  assert (Su : forall psi D, tsem u v psi D = - (Q2R (t_c t) * ssum (t_l t) (fun w => prodf (t_f t) w * opsem (a ++ o' :: o :: r) w psi D) v)).
  { intros. unfold FockWick.tsem. cbn [u t_c t_l t_f t_o]. rewrite Q2R_opp. ring. }
  destruct (cmatch o o') eqn:CM.
  - destruct (contract [] t (o_x o) (true, o_x o', a ++ r)) as [w0|] eqn:Ec; [|discriminate]. injection H as <-. split.
    + constructor; [|now constructor]. apply (contract_kept [] t (o_x o) true (o_x o') (a ++ r) w0 K Ec).
      * intros z Hz. rewrite E. apply in_app_or in Hz as [Hz|Hz]; apply in_or_app; [now left|right; right; now right].
      * rewrite E, map_app. apply in_or_app. right. now left.
      * rewrite E, map_app. apply in_or_app. right. right. now left.
    + intros psi D. cbn [lsum]. rewrite Su, (contract_ok [] t (o_x o) true (o_x o') (a ++ r) w0 psi D v HE K Ec). change (sgn true) with 1.
      unfold FockWick.tsem. rewrite (ssum_ext dim (t_l t) (fun w => prodf (t_f t) w * opsem (t_o t) w psi D)
        (fun w => prodf (t_f t) w * (1 * dl w (o_x o) (o_x o') * opsem (a ++ r) w psi D) + (-1) * (prodf (t_f t) w * opsem (a ++ o' :: o :: r) w psi D))).
      * rewrite ssum_plus, ssum_scal. ring.
      * intros w W1 W2. rewrite (M w psi D (kept_inr [] t v w HE K W1 W2)). ring.
  - injection H as <-. split; [now constructor|]. intros psi D. cbn [lsum]. rewrite Su. unfold FockWick.tsem.
    rewrite (ssum_ext dim (t_l t) (fun w => prodf (t_f t) w * opsem (t_o t) w psi D) (fun w => (-1) * (prodf (t_f t) w * opsem (a ++ o' :: o :: r) w psi D))).
    * rewrite ssum_scal. ring.
    * intros w W1 W2. rewrite (M w psi D (kept_inr [] t v w HE K W1 W2)). ring.
Qed.
Lemma small_nil : small []. Proof. intros x []. Qed.
Lemma swaps_ok v ts : forall acc r, Forall (kept []) ts -> Forall (kept []) acc -> swaps sym ts acc = Some r ->
  Forall (kept []) r /\ forall psi D, lsum (fun u => tsem u v psi D) r = lsum (fun u => tsem u v psi D) ts + lsum (fun u => tsem u v psi D) acc.
Proof.
  induction ts as [|t ts IH]; intros acc r F Fa H; cbn [swaps] in H.
  - injection H as <-. split; [exact Fa|]. intros. cbn [lsum]. ring.
  - assert (F1 := Forall_inv F). assert (F2 := Forall_inv_tail F). destruct (swap t) as [us|] eqn:E; [|discriminate]. destruct (swap_ok t us v F1 E) as (K & S).
    destruct (addall sym us acc) as [acc'|] eqn:E2; [|discriminate]. destruct (addall_ok [] us small_nil acc acc' K Fa E2) as (K' & S').
    destruct (IH _ _ F2 K' H) as (A & B). split; [exact A|]. intros. rewrite B, S'. cbn [lsum]. rewrite S. ring.
Qed.
Theorem nord_ok v psi D : forall n ts r, Forall (kept []) ts -> nord sym n ts = Some r -> psem na nb dim ten r v psi D = psem na nb dim ten ts v psi D.
Proof.
  induction n as [|n IH]; intros ts r F H; cbn [nord] in H; [now injection H as <-|]. destruct (swaps sym ts []) as [us|] eqn:E; [|discriminate].
  destruct (swaps_ok v ts [] us F (Forall_nil _) E) as (K & S). rewrite (IH us r K H). unfold psem. rewrite S. cbn [lsum]. ring.
Qed.
Definition keptb (t : term) : bool :=
  okterm [] t && forallb (Nat.leb base) (names (t_l t)) && forallb (fun y => mem y (names (t_l t)) || Nat.ltb y base) (map o_x (t_o t) ++ fvars (t_f t)).
Lemma keptb_ok t : keptb t = true -> kept [] t.
Proof.
  intros H. apply andb_prop in H as (H & H3). apply andb_prop in H as (H1 & H2). rewrite forallb_forall in H2, H3. apply andb_prop in H1 as (H1 & HO). apply andb_prop in H1 as (H1 & _). split.
  - now apply nodupb_ok.
  - intros x Hx. apply Nat.leb_le. now apply H2.
  - intros y Hy. specialize (H3 y Hy). apply orb_prop in H3 as [H3|H3]; [left; now apply mem_in|right; now apply Nat.ltb_lt].
  - intros o Ho. rewrite forallb_forall in HO. specialize (HO o Ho). unfold okop in HO. apply andb_prop in HO as (O1 & O2). apply Nat.ltb_lt in O1. split; [exact O1|].
    destruct (look (o_x o) (t_l t ++ [])); [|discriminate]. apply Nat.eqb_eq in O2. now subst.
Qed.
End S.

Lemma symtab_ok ten gens n : Forall (fun g => okalt ten (fst g) (snd g)) gens -> forall k x, In x (nth k (symtab gens n) []) -> okalt ten k x.
Proof.
  intros Hg k x Hx. rewrite Forall_forall in Hg. unfold symtab in Hx. destruct (Nat.lt_ge_cases k n) as [Hk|Hk].
  - rewrite (nth_indep _ [] (closure gens 0)) in Hx by (now rewrite map_length, seq_length).
    rewrite map_nth, seq_nth in Hx by exact Hk. now apply (closure_ok ten gens Hg).
  - rewrite nth_overflow in Hx by (rewrite map_length, seq_length; exact Hk). contradiction.
Qed.
Lemma smallb_ok ext : smallb ext = true -> small ext.
Proof. intros H x Hx. unfold smallb in H. rewrite forallb_forall in H. unfold names in Hx. apply in_map_iff in Hx as (z & <- & Hz). apply Nat.ltb_lt. now apply H. Qed.
Theorem fock_fast_sound na nb dim ten gens n tab ext p e v :
  dim 0%nat = na -> dim 2%nat = nb -> tab = symtab gens n -> Forall (fun g => okalt ten (fst g) (snd g)) gens ->
  ext_ok dim ext v -> fock_fast tab ext p e = true -> psem na nb dim ten p v (pure (reference na nb)) (reference na nb) = den dim ten e v.
Proof.
  intros D0 D2 Htab Hg HE H. unfold fock_fast in H. apply andb_prop in H as (HS & H). apply smallb_ok in HS.
  destruct (fasts _ ext p) as [ms|] eqn:E1; [|discriminate]. destruct (nf (EOpp e)) as [q|] eqn:E2; [|discriminate].
  destruct (table _ _ _ (ms ++ q)) as [t|] eqn:E3; [|discriminate]. subst tab. assert (KK := symtab_ok ten gens n Hg).
  rewrite (fasts_ok na nb dim ten D0 D2 (fun k => nth k (symtab gens n) []) (fun k k' p s Hin => proj1 (KK k (k', p, s) Hin)) (fun k k' p s Hin => proj2 (KK k (k', p, s) Hin)) ext v HE HS p ms E1).
  assert (G : pden dim ten (ms ++ q) v = 0).
  { rewrite (table_ok dim ten (fun k => nth k (symtab gens n) []) (fun x => x) [0; 1; 2; 3]%nat) with (t := t).
    - now apply zerot_ok.
    - reflexivity.
    - intros k k' pp s Hin. apply (KK _ _ Hin).
    - intros k k' pp s Hin. apply (KK _ _ Hin).
    - exact E3. }
  rewrite pden_app, <- (nf_ok _ _ _ _ E2) in G. cbn [den] in G. lra.
Qed.
