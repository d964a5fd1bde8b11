(** A decision procedure, with its soundness proof, for equalities between tensor contractions (sums of products of array elements over
    contracted indices).  Nothing here models the code: the file is a proof tool.  An expression [ex] is normalised to a list of monomials
    (coefficient, contracted indices, factors); every monomial is put in a canonical form by trying all orders of its contracted indices and
    all declared symmetries of its factors; two expressions with the same table of canonical monomials have the same value. *)
From Coq Require Import Reals Arith List Bool Lia Lra QArith Qreals ZArith Permutation.
From Verif Require Import RSum.
Import ListNotations.
Local Open Scope nat_scope.

Inductive ex :=
| EC (n : Z) (d : positive)
| ET (k : nat) (ix : list nat)
| EAdd (a b : ex)
| ESub (a b : ex)
| EOpp (a : ex)
| EMul (a b : ex)
| EScale (n : Z) (d : positive) (a : ex)
| ESum (x d : nat) (a : ex).

Definition upd (v : nat -> nat) (x i : nat) : nat -> nat := fun y => if Nat.eqb y x then i else v y.

Record mono := mkMono { m_c : Q; m_l : list (nat * nat); m_f : list (nat * list nat) }.

Fixpoint cmpl (a b : list nat) : comparison :=
  match a, b with
  | [], [] => Eq
  | [], _ => Lt
  | _, [] => Gt
  | x :: a', y :: b' => match Nat.compare x y with Eq => cmpl a' b' | c => c end
  end.
Fixpoint cmpll (a b : list (list nat)) : comparison :=
  match a, b with
  | [], [] => Eq
  | [], _ => Lt
  | _, [] => Gt
  | x :: a', y :: b' => match cmpl x y with Eq => cmpll a' b' | c => c end
  end.
Lemma cmpl_eq a : forall b, cmpl a b = Eq -> a = b.
Proof.
  induction a as [|x a IH]; intros [|y b]; simpl; try discriminate; [reflexivity|].
  destruct (Nat.compare_spec x y); try discriminate. intros E. subst. now rewrite (IH b E).
Qed.
Lemma cmpll_eq a : forall b, cmpll a b = Eq -> a = b.
Proof.
  induction a as [|x a IH]; intros [|y b]; simpl; try discriminate; [reflexivity|].
  destruct (cmpl x y) eqn:E1; try discriminate. intros E. now rewrite (IH b E), (cmpl_eq _ _ E1).
Qed.

(** All permutations of a list *)
Fixpoint inserts {A} (x : A) (l : list A) : list (list A) :=
  match l with
  | [] => [[x]]
  | y :: r => (x :: y :: r) :: map (cons y) (inserts x r)
  end.
Fixpoint perms {A} (l : list A) : list (list A) :=
  match l with
  | [] => [[]]
  | x :: r => flat_map (inserts x) (perms r)
  end.
Lemma inserts_perm {A} (x : A) l : forall p, In p (inserts x l) -> Permutation (x :: l) p.
Proof.
  induction l as [|y l IH]; simpl; intros p [H|H]; try (subst; reflexivity); [contradiction|].
  apply in_map_iff in H as (q & <- & Hq). rewrite perm_swap. now apply perm_skip, IH.
Qed.
Lemma perms_perm {A} (l : list A) : forall p, In p (perms l) -> Permutation l p.
Proof.
  induction l as [|x l IH]; simpl; intros p H.
  - destruct H as [<-|[]]. reflexivity.
  - apply in_flat_map in H as (q & Hq & Hp). rewrite (IH q Hq). now apply inserts_perm.
Qed.
Lemma filter_partition_perm {A} (f : A -> bool) (l : list A) : Permutation l (filter f l ++ filter (fun x => negb (f x)) l).
Proof.
  induction l as [|x l IH]; simpl; [reflexivity|]. destruct (f x); simpl.
  - now apply perm_skip.
  - rewrite IH at 1. apply Permutation_middle.
Qed.
(** Orders of the contracted indices, class by class of length *)
Fixpoint orders (ds : list nat) (l : list (nat * nat)) : list (list (nat * nat)) :=
  match ds with
  | [] => [l]
  | d :: ds' =>
      let a := filter (fun x => Nat.eqb (snd x) d) l in
      let b := filter (fun x => negb (Nat.eqb (snd x) d)) l in
      let pb := orders ds' b in
      flat_map (fun p => map (app p) pb) (perms a)
  end.
Lemma orders_perm ds : forall l p, In p (orders ds l) -> Permutation l p.
Proof.
  induction ds as [|d ds IH]; simpl; intros l p H.
  - destruct H as [<-|[]]. reflexivity.
  - apply in_flat_map in H as (q & Hq & Hp). apply in_map_iff in Hp as (r & <- & Hr).
    rewrite (filter_partition_perm (fun x => Nat.eqb (snd x) d) l) at 1.
    now rewrite (perms_perm _ _ Hq), (IH _ _ Hr).
Qed.

Definition names (l : list (nat * nat)) : list nat := map fst l.
Definition mem (x : nat) (l : list nat) : bool := existsb (Nat.eqb x) l.
Lemma mem_in x l : mem x l = true <-> In x l.
Proof.
  unfold mem. rewrite existsb_exists. split.
  - intros (y & H & E). apply Nat.eqb_eq in E. now subst.
  - intros H. exists x. split; [exact H|apply Nat.eqb_refl].
Qed.
Fixpoint nodupb (l : list nat) : bool := match l with [] => true | x :: r => negb (mem x r) && nodupb r end.
Lemma nodupb_ok l : nodupb l = true -> NoDup l.
Proof.
  induction l as [|x l IH]; simpl; intros H; [constructor|]. apply andb_prop in H as (H1 & H2). constructor; [|now apply IH].
  intros Hin. apply mem_in in Hin. rewrite Hin in H1. discriminate.
Qed.
Definition fvars (fs : list (nat * list nat)) : list nat := flat_map snd fs.

(** Position of a name; [base] marks the canonical names of contracted indices *)
Fixpoint posn (x : nat) (l : list nat) : option nat :=
  match l with [] => None | y :: r => if Nat.eqb x y then Some 0 else match posn x r with Some k => Some (S k) | None => None end end.
Definition base : nat := 8.
Definition rho (ns : list nat) (y : nat) : nat := match posn y ns with Some k => base + k | None => y end.
Fixpoint canl (k : nat) (ds : list nat) : list (nat * nat) := match ds with [] => [] | d :: r => (k, d) :: canl (S k) r end.

Lemma posn_in x l : In x l -> exists k, posn x l = Some k /\ k < length l /\ nth k l 0 = x.
Proof.
  induction l as [|y l IH]; simpl; [contradiction|]. intros [H|H].
  - subst. rewrite Nat.eqb_refl. exists 0. repeat split. lia.
  - destruct (Nat.eqb_spec x y); [subst; exists 0; repeat split; lia|].
    destruct (IH H) as (k & -> & Hk & Hn). exists (S k). repeat split; [lia|exact Hn].
Qed.
Lemma posn_notin x l : ~ In x l -> posn x l = None.
Proof.
  induction l as [|y l IH]; simpl; [reflexivity|]. intros H. destruct (Nat.eqb_spec x y); [subst; exfalso; auto|].
  now rewrite IH by auto.
Qed.
Lemma rho_map l : NoDup (names l) -> map (fun x => (rho (names l) (fst x), snd x)) l = canl base (map snd l).
Proof.
  intros ND.
  assert (G : forall pre l, NoDup (pre ++ names l) ->
              map (fun x => (rho (pre ++ names l) (fst x), snd x)) l = canl (base + length pre) (map snd l)).
  { intros pre l0. revert pre. induction l0 as [|[x d] l0 IH]; simpl; intros pre H; [reflexivity|]. f_equal.
    - f_equal. unfold rho.
      assert (posn x (pre ++ x :: names l0) = Some (length pre)) as ->; [|reflexivity].
      apply NoDup_remove_2 in H. induction pre as [|y pre IHp]; simpl; [now rewrite Nat.eqb_refl|].
      destruct (Nat.eqb_spec x y); [subst; exfalso; apply H; now left|]. rewrite IHp; [reflexivity|]. intros C. apply H. now right.
    - specialize (IH (pre ++ [x])). rewrite <- !app_assoc in IH. simpl in IH.
      rewrite IH by exact H. rewrite app_length. simpl. f_equal. lia. }
  apply (G [] l ND).
Qed.

Local Open Scope R_scope.

Definition sgn (s : bool) : R := if s then 1 else -1.
Definition sgq (s : bool) : Q := if s then 1%Q else (-1)%Q.
Lemma sgq_ok s : Q2R (sgq s) = sgn s.
Proof. destruct s; unfold Q2R; simpl; field. Qed.

Section TA.
Variable dim : nat -> nat.
Variable ten : nat -> list nat -> R.

Fixpoint den (e : ex) (v : nat -> nat) : R :=
  match e with
  | EC n d => IZR n / IZR (Zpos d)
  | ET k ix => ten k (map v ix)
  | EAdd a b => den a v + den b v
  | ESub a b => den a v - den b v
  | EOpp a => - den a v
  | EMul a b => den a v * den b v
  | EScale n d a => IZR n / IZR (Zpos d) * den a v
  | ESum x d a => sumn (dim d) (fun i => den a (upd v x i))
  end.

Fixpoint prodf (fs : list (nat * list nat)) (v : nat -> nat) : R :=
  match fs with [] => 1 | f :: r => ten (fst f) (map v (snd f)) * prodf r v end.
Fixpoint dsum (l : list (nat * nat)) (fs : list (nat * list nat)) (v : nat -> nat) : R :=
  match l with [] => prodf fs v | (x, d) :: r => sumn (dim d) (fun i => dsum r fs (upd v x i)) end.
Definition mden (m : mono) (v : nat -> nat) : R := Q2R (m_c m) * dsum (m_l m) (m_f m) v.
Fixpoint pden (p : list mono) (v : nat -> nat) : R := match p with [] => 0 | m :: r => mden m v + pden r v end.

Lemma pden_app p q v : pden (p ++ q) v = pden p v + pden q v.
Proof. induction p as [|m p IH]; simpl; [ring|rewrite IH; ring]. Qed.

Lemma prodf_agree fs v w : (forall y, In y (fvars fs) -> v y = w y) -> prodf fs v = prodf fs w.
Proof.
  induction fs as [|[k ix] fs IH]; simpl; intros H; [reflexivity|]. f_equal.
  - f_equal. apply map_ext_in. intros y Hy. apply H. apply in_or_app. now left.
  - apply IH. intros y Hy. apply H. apply in_or_app. now right.
Qed.
Lemma dsum_agree l fs : forall v w, (forall y, In y (fvars fs) -> ~ In y (names l) -> v y = w y) -> dsum l fs v = dsum l fs w.
Proof.
  induction l as [|[x d] l IH]; simpl; intros v w H.
  - apply prodf_agree. intros y Hy. apply H; auto.
  - apply sumn_ext. intros i _. apply IH. intros y Hy Hn. unfold upd. destruct (Nat.eqb_spec y x); [reflexivity|].
    apply H; [exact Hy|]. intros [E|E]; [now symmetry in E|contradiction].
Qed.
Lemma dsum_perm l l' fs : Permutation l l' -> NoDup (names l) -> forall v, dsum l fs v = dsum l' fs v.
Proof.
  intros P. induction P as [|[x d] l l' P IH|[x d] [y e] l|l l' l'' P1 IH1 P2 IH2]; simpl; intros ND v.
  - reflexivity.
  - apply sumn_ext. intros i _. apply IH. now inversion ND.
  - rewrite sumn_swap. apply sumn_ext. intros i _. apply sumn_ext. intros j _. apply dsum_agree. intros z _ _. unfold upd.
    destruct (Nat.eqb_spec z x), (Nat.eqb_spec z y); try reflexivity. subst. subst. inversion ND as [|? ? H _]. exfalso. apply H. now left.
  - rewrite IH1 by exact ND. apply IH2. unfold names. apply (Permutation_NoDup (l := names l)); [now apply Permutation_map|exact ND].
Qed.

(** Renaming of the contracted indices *)
Definition renf (r : nat -> nat) (fs : list (nat * list nat)) : list (nat * list nat) := map (fun f => (fst f, map r (snd f))) fs.
Definition renl (r : nat -> nat) (l : list (nat * nat)) : list (nat * nat) := map (fun x => (r (fst x), snd x)) l.
Lemma dsum_rename r l fs :
  (forall x y, In x (names l) -> In y (fvars fs) -> r x = r y -> x = y) ->
  forall v w, (forall y, In y (fvars fs) -> ~ In y (names l) -> v (r y) = w y) -> dsum (renl r l) (renf r fs) v = dsum l fs w.
Proof.
  induction l as [|[x d] l IH]; simpl; intros Inj v w H.
  - clear Inj. induction fs as [|[k ix] fs IHf]; simpl; [reflexivity|]. f_equal.
    + f_equal. rewrite map_map. apply map_ext_in. intros y Hy. apply H; [|tauto]. simpl. apply in_or_app. now left.
    + apply IHf. intros y Hy _. apply H; [|tauto]. simpl. apply in_or_app. now right.
  - apply sumn_ext. intros i _. apply IH.
    + intros x0 y Hx. apply Inj. now right.
    + intros y Hy Hn. unfold upd. destruct (Nat.eqb_spec y x).
      * subst. now rewrite Nat.eqb_refl.
      * destruct (Nat.eqb_spec (r y) (r x)) as [E|E].
        -- exfalso. apply n. symmetry. apply Inj; auto.
        -- apply H; [exact Hy|]. intros [C|C]; [now symmetry in C|contradiction].
Qed.
Lemma rho_inj ns fs : (forall y, In y (fvars fs) -> ~ In y ns -> (y < base)%nat) ->
  forall x y, In x ns -> In y (fvars fs) -> rho ns x = rho ns y -> x = y.
Proof.
  intros Hb x y Hx Hy. unfold rho. destruct (posn_in x ns Hx) as (k & -> & Hk & Ek).
  destruct (in_dec Nat.eq_dec y ns) as [Hi|Hi].
  - destruct (posn_in y ns Hi) as (k' & -> & Hk' & Ek'). intros E. assert (k = k') by lia. subst. reflexivity.
  - rewrite (posn_notin y ns Hi). intros E. specialize (Hb y Hy Hi). unfold base in *. lia.
Qed.

(** Normalisation of expressions *)
Definition disjb (a b : list nat) : bool := forallb (fun x => negb (mem x b)) a.
Lemma disjb_ok a b : disjb a b = true -> forall x, In x a -> ~ In x b.
Proof.
  unfold disjb. intros H x Hx Hb. rewrite forallb_forall in H. specialize (H x Hx). apply mem_in in Hb. rewrite Hb in H. discriminate.
Qed.
Definition mmul (m n : mono) : option mono :=
  if disjb (names (m_l m)) (fvars (m_f n)) && disjb (names (m_l n)) (fvars (m_f m)) then
    Some (mkMono (Qred (m_c m * m_c n)) (m_l m ++ m_l n) (m_f m ++ m_f n))
  else None.
Fixpoint seqo {A} (l : list (option A)) : option (list A) :=
  match l with [] => Some [] | x :: r => match x, seqo r with Some y, Some s => Some (y :: s) | _, _ => None end end.
Definition mscale (c : Q) (m : mono) : mono := mkMono (Qred (c * m_c m)) (m_l m) (m_f m).
Fixpoint nf (e : ex) : option (list mono) :=
  match e with
  | EC n d => Some [mkMono (n # d) [] []]
  | ET k ix => Some [mkMono 1 [] [(k, ix)]]
  | EAdd a b => match nf a, nf b with Some p, Some q => Some (p ++ q) | _, _ => None end
  | ESub a b => match nf a, nf b with Some p, Some q => Some (p ++ map (mscale (-1)) q) | _, _ => None end
  | EOpp a => match nf a with Some p => Some (map (mscale (-1)) p) | None => None end
  | EMul a b => match nf a, nf b with Some p, Some q => seqo (flat_map (fun m => map (mmul m) q) p) | _, _ => None end
  | EScale n d a => match nf a with Some p => Some (map (mscale (n # d)) p) | None => None end
  | ESum x d a => match nf a with Some p => Some (map (fun m => mkMono (m_c m) ((x, d) :: m_l m) (m_f m)) p) | None => None end
  end.

Lemma mscale_ok c m v : mden (mscale c m) v = Q2R c * mden m v.
Proof. unfold mden, mscale. cbn [m_c m_l m_f]. rewrite (Qeq_eqR _ _ (Qred_correct _)), Q2R_mult. ring. Qed.
Lemma pden_scale c p v : pden (map (mscale c) p) v = Q2R c * pden p v.
Proof. induction p as [|m p IH]; simpl; [ring|]. rewrite mscale_ok, IH. ring. Qed.
Lemma fvars_app a b : fvars (a ++ b) = fvars a ++ fvars b.
Proof. unfold fvars. induction a as [|f a IH]; simpl; [reflexivity|]. now rewrite IH, app_assoc. Qed.
Lemma prodf_app a b v : prodf (a ++ b) v = prodf a v * prodf b v.
Proof. induction a as [|f a IH]; simpl; [ring|rewrite IH; ring]. Qed.
Lemma dsum_mul l1 f1 l2 f2 :
  (forall x, In x (names l1) -> ~ In x (fvars f2)) -> (forall x, In x (names l2) -> ~ In x (fvars f1)) ->
  forall v, dsum l1 f1 v * dsum l2 f2 v = dsum (l1 ++ l2) (f1 ++ f2) v.
Proof.
  intros H1 H2. induction l1 as [|[x d] l1 IH]; simpl; intros v.
  - revert v. clear H1. induction l2 as [|[x d] l2 IH]; simpl; intros v; [now rewrite prodf_app|].
    rewrite <- sumn_scal. apply sumn_ext. intros i _. rewrite <- IH by (intros y Hy; apply H2; now right). f_equal.
    apply prodf_agree. intros y Hy. unfold upd. destruct (Nat.eqb_spec y x); [|reflexivity]. subst. exfalso. apply (H2 x); [now left|exact Hy].
  - rewrite <- sumn_scal_r. apply sumn_ext. intros i _. rewrite <- IH by (intros y Hy; apply H1; now right). f_equal.
    apply dsum_agree. intros y Hy _. unfold upd. destruct (Nat.eqb_spec y x); [|reflexivity]. subst. exfalso. apply (H1 x); [now left|exact Hy].
Qed.
Lemma mmul_ok m n r v : mmul m n = Some r -> mden r v = mden m v * mden n v.
Proof.
  unfold mmul. destruct (_ && _) eqn:E; [|discriminate]. intros H. apply andb_prop in E as (E1 & E2).
  assert (r = mkMono (Qred (m_c m * m_c n)) (m_l m ++ m_l n) (m_f m ++ m_f n)) as -> by congruence.
  unfold mden. cbn [m_c m_l m_f]. rewrite (Qeq_eqR _ _ (Qred_correct _)), Q2R_mult, <- dsum_mul; [ring|now apply disjb_ok|now apply disjb_ok].
Qed.
Lemma seqo_app {A} (a b : list (option A)) r : seqo (a ++ b) = Some r -> exists x y, seqo a = Some x /\ seqo b = Some y /\ r = x ++ y.
Proof.
  revert r. induction a as [|[x|] a IH]; simpl; intros r H; [|destruct (seqo (a ++ b)) eqn:E; [|discriminate]|discriminate].
  - exists [], r. auto.
  - injection H as <-. destruct (IH _ eq_refl) as (y & z & -> & -> & ->). exists (x :: y), z. auto.
Qed.
Lemma nf_ok e : forall p, nf e = Some p -> forall v, den e v = pden p v.
Proof.
  induction e as [n d|k ix|a IHa b IHb|a IHa b IHb|a IHa|a IHa b IHb|n d a IHa|x d a IHa]; simpl; intros p H v.
  - injection H as <-. simpl. unfold mden. simpl. unfold Q2R. simpl. unfold Rdiv. ring.
  - injection H as <-. simpl. unfold mden. simpl. unfold Q2R. simpl. field.
  - destruct (nf a) as [pa|]; [|discriminate]. destruct (nf b) as [pb|]; [|discriminate]. injection H as <-.
    rewrite pden_app, (IHa _ eq_refl), (IHb _ eq_refl). reflexivity.
  - destruct (nf a) as [pa|]; [|discriminate]. destruct (nf b) as [pb|]; [|discriminate]. injection H as <-.
    rewrite pden_app, pden_scale, (IHa _ eq_refl), (IHb _ eq_refl). unfold Q2R. simpl. field.
  - destruct (nf a) as [pa|]; [|discriminate]. injection H as <-. rewrite pden_scale, (IHa _ eq_refl). unfold Q2R. simpl. field.
  - destruct (nf a) as [pa|]; [|discriminate]. destruct (nf b) as [pb|]; [|discriminate].
    rewrite (IHa _ eq_refl), (IHb _ eq_refl). clear - H. revert p H. induction pa as [|m pa IH]; simpl; intros p H.
    + injection H as <-. simpl. ring.
    + apply seqo_app in H as (x & y & Hx & Hy & ->). rewrite pden_app, <- (IH _ Hy).
      assert (G : pden x v = mden m v * pden pb v); [|rewrite G; ring].
      clear - Hx. revert x Hx. induction pb as [|n pb IH]; simpl; intros x Hx.
      * injection Hx as <-. simpl. ring.
      * destruct (mmul m n) as [r|] eqn:E; [|discriminate]. destruct (seqo (map (mmul m) pb)) as [s|]; [|discriminate].
        injection Hx as <-. simpl. rewrite (IH _ eq_refl), (mmul_ok _ _ _ v E). ring.
  - destruct (nf a) as [pa|]; [|discriminate]. injection H as <-. rewrite pden_scale, (IHa _ eq_refl). reflexivity.
  - destruct (nf a) as [pa|]; [|discriminate]. injection H as <-.
    rewrite (sumn_ext _ _ (fun i => pden pa (upd v x i))) by (intros i _; apply (IHa _ eq_refl)). clear.
    induction pa as [|m pa IH]; simpl; [apply sumn_const0|]. rewrite sumn_plus, IH. f_equal. unfold mden. simpl. now rewrite <- sumn_scal.
Qed.

(** Symmetries: [sym k] lists, for array [k], other ways of writing the same element: array, positions, sign *)
Variable sym : nat -> list (nat * list nat * bool).
Variable dcan : nat -> nat.
Variable dcls : list nat.
Hypothesis dim_can : forall d, dim (dcan d) = dim d.
Definition pick (p : list nat) (ix : list nat) : list nat := map (fun j => nth j ix 0%nat) p.
Hypothesis sym_ok : forall k k' p s, In (k', p, s) (sym k) -> forall ix, length ix = length p -> ten k ix = sgn s * ten k' (pick p ix).
Hypothesis sym_len : forall k k' p s, In (k', p, s) (sym k) -> forall j, In j p -> (j < length p)%nat.

Definition cmpf (a b : nat * list nat) : comparison := cmpl (fst a :: snd a) (fst b :: snd b).
Fixpoint best (ix : list nat) (cur : nat * list nat * bool) (alts : list (nat * list nat * bool)) : nat * list nat * bool :=
  match alts with
  | [] => cur
  | (k', p, s) :: r =>
      if Nat.eqb (length ix) (length p) then
        let c := (k', pick p ix) in
        match cmpf c (fst cur) with Lt => best ix (c, s) r | _ => best ix cur r end
      else best ix cur r
  end.
Definition canf (f : nat * list nat) : nat * list nat * bool := best (snd f) (f, true) (sym (fst f)).

Lemma map_pick v p ix : (forall j, In j p -> (j < length ix)%nat) -> map v (pick p ix) = pick p (map v ix).
Proof.
  intros H. unfold pick. rewrite map_map. apply map_ext_in. intros j Hj. rewrite (nth_indep (map v ix) 0%nat (v 0%nat)) by (rewrite map_length; auto).
  now rewrite map_nth.
Qed.
Lemma best_ok k ix v alts : incl alts (sym k) -> forall cur, ten k (map v ix) = sgn (snd cur) * ten (fst (fst cur)) (map v (snd (fst cur))) ->
  let r := best ix cur alts in ten k (map v ix) = sgn (snd r) * ten (fst (fst r)) (map v (snd (fst r))).
Proof.
  induction alts as [|[[k' p] s] alts IH]; intros Hi cur Hc; simpl; [exact Hc|].
  assert (Hi' : incl alts (sym k)) by (intros z Hz; apply Hi; now right).
  destruct (Nat.eqb_spec (length ix) (length p)) as [E|E]; [|now apply IH].
  destruct (cmpf (k', pick p ix) (fst cur)); try (now apply IH).
  apply IH; [exact Hi'|]. simpl.
  assert (Hin : In (k', p, s) (sym k)) by (apply Hi; now left).
  rewrite map_pick by (intros j Hj; rewrite E; now apply (sym_len _ _ _ _ Hin)).
  apply sym_ok; [exact Hin|now rewrite map_length].
Qed.
Lemma canf_ok f v : ten (fst f) (map v (snd f)) = sgn (snd (canf f)) * ten (fst (fst (canf f))) (map v (snd (fst (canf f)))).
Proof. apply best_ok; [apply incl_refl|]. simpl. ring. Qed.

Fixpoint insf (f : nat * list nat) (l : list (nat * list nat)) : list (nat * list nat) :=
  match l with [] => [f] | g :: r => match cmpf f g with Gt => g :: insf f r | _ => f :: l end end.
(** Canonical factors: sorted, with the product of the signs *)
Fixpoint canfs (fs : list (nat * list nat)) : list (nat * list nat) * bool :=
  match fs with
  | [] => ([], true)
  | f :: r => let '(g, s) := canf f in let '(l, s') := canfs r in (insf g l, Bool.eqb s s')
  end.
Lemma insf_ok f l v : prodf (insf f l) v = ten (fst f) (map v (snd f)) * prodf l v.
Proof. induction l as [|g l IH]; simpl; [reflexivity|]. destruct (cmpf f g); simpl; try reflexivity. rewrite IH. ring. Qed.
Lemma canfs_ok fs v : prodf fs v = sgn (snd (canfs fs)) * prodf (fst (canfs fs)) v.
Proof.
  induction fs as [|f fs IH]; simpl; [ring|]. rewrite (canf_ok f v), IH. destruct (canf f) as [g s]. destruct (canfs fs) as [l s']. simpl.
  rewrite insf_ok. destruct s, s'; unfold sgn; simpl; ring.
Qed.
Lemma dsum_scale c l fs gs : (forall v, prodf fs v = c * prodf gs v) -> forall v, dsum l fs v = c * dsum l gs v.
Proof.
  intros H. induction l as [|[x d] l IH]; simpl; intros v; [apply H|]. rewrite <- sumn_scal. apply sumn_ext. intros i _. apply IH.
Qed.

(** Keys: the lengths of the contracted indices, then the factors *)
Definition key := list (list nat).
Definition kof (ds : list nat) (fs : list (nat * list nat)) : key := ds :: map (fun f => fst f :: snd f) fs.
Definition kfs (r : key) : list (nat * list nat) := map (fun x => match x with [] => (0%nat, []) | k :: ix => (k, ix) end) r.
Definition kden (k : key) (v : nat -> nat) : R :=
  match k with [] => 0 | ds :: r => dsum (canl base ds) (kfs r) v end.
Definition cand (l : list (nat * nat)) (fs : list (nat * list nat)) : key * bool :=
  let r := rho (names l) in
  let '(gs, s) := canfs (renf r fs) in
  (kof (map snd l) gs, s).
Lemma kfs_kof gs : kfs (map (fun f : nat * list nat => fst f :: snd f) gs) = gs.
Proof. unfold kfs. rewrite map_map. rewrite <- (map_id gs) at 2. apply map_ext. now intros [k ix]. Qed.
Lemma cand_ok l fs v : NoDup (names l) -> (forall y, In y (fvars fs) -> ~ In y (names l) -> (y < base)%nat) ->
  dsum l fs v = sgn (snd (cand l fs)) * kden (fst (cand l fs)) v.
Proof.
  intros ND Hb. unfold cand. set (r := rho (names l)).
  rewrite <- (dsum_rename r l fs (rho_inj (names l) fs Hb) v v).
  - unfold renl. change (map (fun x : nat * nat => (r (fst x), snd x)) l) with (map (fun x : nat * nat => (rho (names l) (fst x), snd x)) l).
    rewrite (rho_map l ND). rewrite (dsum_scale _ _ _ _ (canfs_ok (renf r fs))). destruct (canfs (renf r fs)) as [gs s]. simpl.
    now rewrite kfs_kof.
  - intros y _ Hn. unfold r, rho. now rewrite (posn_notin _ _ Hn).
Qed.

(** The least candidate; both signs for the same key make the term zero *)
Fixpoint least (cur : key) (s : bool) (z : bool) (l : list (key * bool)) : key * bool * bool :=
  match l with
  | [] => (cur, s, z)
  | (k, s') :: r => match cmpll k cur with
                    | Lt => least k s' false r
                    | Eq => least cur s (z || negb (Bool.eqb s s')) r
                    | Gt => least cur s z r
                    end
  end.
Definition reld (l : list (nat * nat)) : list (nat * nat) := map (fun x => (fst x, dcan (snd x))) l.
Definition canm (m : mono) : option (key * Q) :=
  let l := reld (m_l m) in
  let ns := names l in
  if nodupb ns && forallb (fun y => mem y ns || Nat.ltb y base) (fvars (m_f m)) then
    match map (fun p => cand p (m_f m)) (orders dcls l) with
    | [] => None
    | (k, s) :: r => let '(k', s', z) := least k s false r in Some (k', if z then 0%Q else Qred (sgq s' * m_c m))
    end
  else None.

Lemma least_ok (x : R) (v : nat -> nat) l : forall cur s z,
  (forall k s', In (k, s') l -> x = sgn s' * kden k v) -> x = sgn s * kden cur v -> (z = true -> x = 0) ->
  let '(k', s', z') := least cur s z l in x = sgn s' * kden k' v /\ (z' = true -> x = 0).
Proof.
  induction l as [|[k s1] l IH]; intros cur s z Hl Hc Hz; simpl; [auto|].
  assert (Hl' : forall k s', In (k, s') l -> x = sgn s' * kden k v) by (intros; apply Hl; now right).
  assert (Hk : x = sgn s1 * kden k v) by (apply Hl; now left).
  destruct (cmpll k cur) eqn:E.
  - apply cmpll_eq in E. subst k. apply IH; auto. intros Hb. apply orb_true_iff in Hb as [Hb|Hb]; [auto|].
    destruct s, s1; simpl in Hb; try discriminate; unfold sgn in *; lra.
  - apply IH; auto. discriminate.
  - apply IH; auto.
Qed.
Lemma reld_ok l fs : forall v, dsum (reld l) fs v = dsum l fs v.
Proof. induction l as [|[x d] l IH]; simpl; intros v; [reflexivity|]. rewrite dim_can. apply sumn_ext. intros i _. apply IH. Qed.
Lemma canm_ok m k c v : canm m = Some (k, c) -> mden m v = Q2R c * kden k v.
Proof.
  unfold canm. set (l := reld (m_l m)). destruct (nodupb (names l)) eqn:Hn; [|discriminate]. apply nodupb_ok in Hn.
  destruct (forallb _ _) eqn:Hf; [|discriminate]. cbn [andb]. rewrite forallb_forall in Hf.
  assert (HC : forall k s', In (k, s') (map (fun p => cand p (m_f m)) (orders dcls l)) -> dsum (m_l m) (m_f m) v = sgn s' * kden k v).
  { intros k0 s' H. apply in_map_iff in H as (p & Hp & Ho). apply orders_perm in Ho.
    assert (Pn : Permutation (names l) (names p)) by (now apply Permutation_map).
    rewrite <- reld_ok. fold l. rewrite (dsum_perm l p _ Ho Hn). rewrite (cand_ok p (m_f m) v).
    - now rewrite Hp.
    - now apply (Permutation_NoDup Pn).
    - intros y Hy Hny. specialize (Hf y Hy). apply orb_prop in Hf as [Hf|Hf].
      + apply mem_in in Hf. exfalso. apply Hny. now apply (Permutation_in _ Pn).
      + now apply Nat.ltb_lt. }
  destruct (map _ _) as [|[k0 s0] r]; [discriminate|].
  assert (HL := least_ok (dsum (m_l m) (m_f m) v) v r k0 s0 false). destruct (least k0 s0 false r) as [[k' s'] z].
  intros E. remember (if z then 0%Q else Qred (sgq s' * m_c m)) as q eqn:Hq in E. injection E as E1 E2. rewrite <- E1, <- E2, Hq. clear Hq E2 q. destruct HL as (HL1 & HL2); [intros; apply HC; now right|apply HC; now left|discriminate|].
  unfold mden. destruct z.
  - rewrite (HL2 eq_refl). unfold Q2R. simpl. ring.
  - rewrite HL1, (Qeq_eqR _ _ (Qred_correct _)), Q2R_mult, sgq_ok. ring.
Qed.

(** One order of the contracted indices instead of all of them: each contracted index is described by its length and by the places it
    occupies (array and orbit of the position under the symmetries of the array), and the indices are sorted by that description.
    Equal arrays of a product are told apart by numbering them, in every possible way.  This may miss equal monomials, but it never
    identifies different ones; [table] falls back on all orders when something is left. *)
Definition minl (a b : list nat) : list nat := match cmpl b a with Lt => b | _ => a end.
Definition orbit (k i : nat) : list nat :=
  fold_left (fun acc a => let '(k', p, s) := a in match posn i p with Some j => minl acc [k'; j] | None => acc end) (sym k) [k; i].
Definition cname (f : nat * list nat) : nat :=
  fold_left (fun acc (a : nat * list nat * bool) => let k' := fst (fst a) in if Nat.ltb k' acc then k' else acc) (sym (fst f)) (fst f).
Fixpoint inss (x : list nat) (l : list (list nat)) : list (list nat) :=
  match l with [] => [x] | y :: r => match cmpl x y with Gt => y :: inss x r | _ => x :: l end end.
Fixpoint places (n k i : nat) (x : nat) (ix : list nat) (acc : list (list nat)) : list (list nat) :=
  match ix with
  | [] => acc
  | y :: r => if Nat.eqb x y then inss (orbit k i ++ [n]) (places n k (S i) x r acc) else places n k (S i) x r acc
  end.
Fixpoint insq (c : nat) (f : nat * (nat * list nat)) (l : list (nat * (nat * list nat))) : list (list (nat * (nat * list nat))) :=
  match l with
  | [] => []
  | g :: r => (if Nat.eqb c (fst g) then [g :: f :: r] else []) ++ map (cons g) (insq c f r)
  end.
Definition forders (fs : list (nat * list nat)) : list (list (nat * (nat * list nat))) :=
  fold_right (fun f acc => let c := cname f in flat_map (fun l => ((c, f) :: l) :: insq c (c, f) l) acc) [[]] fs.
Fixpoint numf (fs : list (nat * (nat * list nat))) : list (nat * (nat * list nat)) :=
  match fs with
  | [] => []
  | (c, f) :: r => (length (filter (fun g : nat * (nat * list nat) => Nat.eqb c (fst g)) r), f) :: numf r
  end.
Definition sigof (fs : list (nat * (nat * list nat))) (x : nat * nat) : list (list nat) :=
  [snd x] :: fold_right (fun f acc => places (fst f) (fst (snd f)) 0 (fst x) (snd (snd f)) acc) [] fs.
Fixpoint insg (g : list (list nat) * (nat * nat)) (l : list (list (list nat) * (nat * nat))) : list (list (list nat) * (nat * nat)) :=
  match l with [] => [g] | h :: r => match cmpll (fst g) (fst h) with Gt => h :: insg g r | _ => g :: l end end.
Definition order1 (fs : list (nat * (nat * list nat))) (l : list (nat * nat)) : list (nat * nat) :=
  map snd (fold_right (fun x acc => insg (sigof fs x, x) acc) [] l).
Lemma insg_perm g l : Permutation (insg g l) (g :: l).
Proof.
  induction l as [|h l IH]; simpl; [reflexivity|]. destruct (cmpll _ _); try reflexivity.
  rewrite IH. apply perm_swap.
Qed.
Lemma order1_perm fs l : Permutation l (order1 fs l).
Proof.
  unfold order1. induction l as [|x l IH]; simpl; [reflexivity|].
  rewrite (Permutation_map snd (insg_perm _ _)). simpl. now constructor.
Qed.
Definition canm1 (m : mono) : option (key * Q) :=
  let l := reld (m_l m) in
  let ns := names l in
  if nodupb ns && forallb (fun y => mem y ns || Nat.ltb y base) (fvars (m_f m)) then
    match map (fun fs => cand (order1 (numf fs) l) (m_f m)) (forders (m_f m)) with
    | [] => None
    | (k, s) :: r => let '(k', s', z) := least k s false r in Some (k', if z then 0%Q else Qred (sgq s' * m_c m))
    end
  else None.
Lemma canm1_ok m k c v : canm1 m = Some (k, c) -> mden m v = Q2R c * kden k v.
Proof.
  unfold canm1. set (l := reld (m_l m)). destruct (nodupb (names l)) eqn:Hn; [|discriminate]. apply nodupb_ok in Hn.
  destruct (forallb _ _) eqn:Hf; [|discriminate]. cbn [andb]. rewrite forallb_forall in Hf.
  assert (HC : forall k s', In (k, s') (map (fun fs => cand (order1 (numf fs) l) (m_f m)) (forders (m_f m))) ->
    dsum (m_l m) (m_f m) v = sgn s' * kden k v).
  { intros k0 s' H. apply in_map_iff in H as (fs & Hp & _). set (p := order1 (numf fs) l) in Hp.
    assert (Ho : Permutation l p) by apply order1_perm.
    assert (Pn : Permutation (names l) (names p)) by (now apply Permutation_map).
    rewrite <- reld_ok. fold l. rewrite (dsum_perm l p _ Ho Hn). rewrite (cand_ok p (m_f m) v).
    - now rewrite Hp.
    - now apply (Permutation_NoDup Pn).
    - intros y Hy Hny. specialize (Hf y Hy). apply orb_prop in Hf as [Hf|Hf].
      + apply mem_in in Hf. exfalso. apply Hny. now apply (Permutation_in _ Pn).
      + now apply Nat.ltb_lt. }
  destruct (map _ _) as [|[k0 s0] r]; [discriminate|].
  assert (HL := least_ok (dsum (m_l m) (m_f m) v) v r k0 s0 false). destruct (least k0 s0 false r) as [[k' s'] z].
  intros E. remember (if z then 0%Q else Qred (sgq s' * m_c m)) as q eqn:Hq in E. injection E as E1 E2. rewrite <- E1, <- E2, Hq. clear Hq E2 q.
  destruct HL as (HL1 & HL2); [intros; apply HC; now right|apply HC; now left|discriminate|].
  unfold mden. destruct z.
  - rewrite (HL2 eq_refl). unfold Q2R. simpl. ring.
  - rewrite HL1, (Qeq_eqR _ _ (Qred_correct _)), Q2R_mult, sgq_ok. ring.
Qed.

(** The table of canonical monomials *)
Fixpoint tden (t : list (key * Q)) (v : nat -> nat) : R := match t with [] => 0 | (k, c) :: r => Q2R c * kden k v + tden r v end.
Fixpoint merget (t : list (key * Q)) : list (key * Q) -> list (key * Q) :=
  fix mergel (u : list (key * Q)) : list (key * Q) :=
    match t, u with
    | [], _ => u
    | _, [] => t
    | (k, c) :: t', (k', c') :: u' =>
        match cmpll k k' with
        | Eq => (k, Qred (c + c')) :: merget t' u'
        | Lt => (k, c) :: merget t' u
        | Gt => (k', c') :: mergel u'
        end
    end.
Lemma merget_ok v : forall t u, tden (merget t u) v = tden t v + tden u v.
Proof.
  induction t as [|[k c] t IH]; intros u; [destruct u; cbn [merget tden]; ring|].
  induction u as [|[k' c'] u IHu]; [cbn [merget tden]; ring|].
  cbn [merget]. destruct (cmpll k k') eqn:E; cbn [tden].
  - apply cmpll_eq in E. subst k'. rewrite IH, (Qeq_eqR _ _ (Qred_correct _)), Q2R_plus. ring.
  - rewrite IH. cbn [tden]. ring.
  - change (Q2R c' * kden k' v + tden (merget ((k, c) :: t) u) v = Q2R c * kden k v + tden t v + (Q2R c' * kden k' v + tden u v)).
    rewrite IHu. cbn [tden]. ring.
Qed.
Fixpoint push (t : list (key * Q)) (st : list (option (list (key * Q)))) : list (option (list (key * Q))) :=
  match st with
  | [] => [Some t]
  | None :: r => Some t :: r
  | Some u :: r => None :: push (merget t u) r
  end.
Fixpoint flush (st : list (option (list (key * Q)))) : list (key * Q) :=
  match st with [] => [] | None :: r => flush r | Some u :: r => merget u (flush r) end.
Fixpoint stden (st : list (option (list (key * Q)))) (v : nat -> nat) : R :=
  match st with [] => 0 | None :: r => stden r v | Some u :: r => tden u v + stden r v end.
Lemma push_ok v st : forall t, stden (push t st) v = tden t v + stden st v.
Proof.
  induction st as [|[u|] r IH]; intros t; cbn [push stden]; [reflexivity| |reflexivity]. rewrite IH, merget_ok. ring.
Qed.
Lemma flush_ok v st : tden (flush st) v = stden st v.
Proof. induction st as [|[u|] r IH]; cbn [flush stden tden]; [reflexivity| |exact IH]. now rewrite merget_ok, IH. Qed.
Fixpoint stack (can : mono -> option (key * Q)) (p : list mono) (st : list (option (list (key * Q)))) : option (list (option (list (key * Q)))) :=
  match p with
  | [] => Some st
  | m :: r => match can m with Some (k, c) => stack can r (push [(k, c)] st) | None => None end
  end.
Lemma stack_ok can v (can_ok : forall m k c, can m = Some (k, c) -> mden m v = Q2R c * kden k v) p : forall st st',
  stack can p st = Some st' -> stden st' v = pden p v + stden st v.
Proof.
  induction p as [|m p IH]; cbn [stack pden]; intros st st' H; [injection H as <-; ring|].
  destruct (can m) as [[k c]|] eqn:E; [|discriminate]. rewrite (IH _ _ H), push_ok, (can_ok _ _ _ E). cbn [tden]. ring.
Qed.
Definition table_by (can : mono -> option (key * Q)) (p : list mono) : option (list (key * Q)) :=
  match stack can p [] with Some st => Some (flush st) | None => None end.
Definition zerot (t : list (key * Q)) : bool := forallb (fun x => Qeq_bool (snd x) 0) t.
Lemma zerot_ok t v : zerot t = true -> tden t v = 0.
Proof.
  induction t as [|[k c] t IH]; simpl; intros H; [reflexivity|]. apply andb_prop in H as (H1 & H2). apply Qeq_bool_eq in H1.
  rewrite (Qeq_eqR _ _ H1), (IH H2). unfold Q2R. simpl. ring.
Qed.
Definition table (p : list mono) : option (list (key * Q)) :=
  match table_by canm1 p with Some t => if zerot t then Some t else table_by canm p | None => table_by canm p end.
Lemma table_by_ok can p v (can_ok : forall m k c, can m = Some (k, c) -> mden m v = Q2R c * kden k v) :
  forall t, table_by can p = Some t -> pden p v = tden t v.
Proof.
  unfold table_by. intros t H. destruct (stack can p []) as [st|] eqn:E; [|discriminate]. injection H as <-.
  rewrite flush_ok, (stack_ok can v can_ok p [] st E). cbn [stden]. ring.
Qed.
Lemma table_ok p : forall t, table p = Some t -> forall v, pden p v = tden t v.
Proof.
  unfold table. intros t H v. pose proof (table_by_ok canm p v (fun m k c => canm_ok m k c v)) as S.
  destruct (table_by canm1 p) as [t1|] eqn:E; [|now apply S]. destruct (zerot t1); [|now apply S].
  injection H as <-. exact (table_by_ok canm1 p v (fun m k c => canm1_ok m k c v) t1 E).
Qed.
(** What is left after cancellation (for diagnosis) *)
Definition residue (a b : ex) : option (list (key * Q)) :=
  match nf (ESub a b) with
  | Some p => match table p with Some t => Some (filter (fun x => negb (Qeq_bool (snd x) 0)) t) | None => None end
  | None => None
  end.
Definition same (a b : ex) : bool :=
  match nf (ESub a b) with
  | Some p => match table p with Some t => zerot t | None => false end
  | None => false
  end.
Theorem same_sound a b : same a b = true -> forall v, den a v = den b v.
Proof.
  unfold same. intros H v. destruct (nf (ESub a b)) as [p|] eqn:E1; [|discriminate]. destruct (table p) as [t|] eqn:E2; [|discriminate].
  assert (G : den (ESub a b) v = 0) by (rewrite (nf_ok _ _ E1), (table_ok _ _ E2); now apply zerot_ok).
  simpl in G. lra.
Qed.
End TA.

(** Closing a list of generating symmetries under composition *)
Section Closure.
Variable ten : nat -> list nat -> R.
Variable gens : list (nat * (nat * list nat * bool)).
Definition gens_of (k : nat) : list (nat * list nat * bool) := map snd (filter (fun g => Nat.eqb (fst g) k) gens).
Definition compo (p : list nat) (s : bool) (g : nat * list nat * bool) : nat * list nat * bool :=
  let '(k', q, t) := g in (k', pick q p, Bool.eqb s t).
Definition eqalt (a b : nat * list nat * bool) : bool :=
  let '(k, p, s) := a in let '(k', q, t) := b in
  Nat.eqb k k' && match cmpl p q with Eq => true | _ => false end && Bool.eqb s t.
Fixpoint addnew (l acc : list (nat * list nat * bool)) : list (nat * list nat * bool) :=
  match l with [] => acc | a :: r => if existsb (eqalt a) acc then addnew r acc else addnew r (acc ++ [a]) end.
Fixpoint close (fuel : nat) (acc : list (nat * list nat * bool)) : list (nat * list nat * bool) :=
  match fuel with
  | O => acc
  | S f => let new := flat_map (fun a => let '(k, p, s) := a in
                                          map (compo p s) (filter (fun g => Nat.eqb (length (snd (fst g))) (length p)) (gens_of k))) acc in
           let acc' := addnew new acc in
           if Nat.eqb (length acc') (length acc) then acc else close f acc'
  end.
Definition closure (k : nat) : list (nat * list nat * bool) :=
  match gens_of k with
  | [] => []
  | (k', p, s) :: _ => close 40 [(k, seq 0 (length p), true)]
  end.
Definition okalt (k : nat) (a : nat * list nat * bool) : Prop :=
  let '(k', p, s) := a in
  (forall ix, length ix = length p -> ten k ix = sgn s * ten k' (pick p ix)) /\ (forall j, In j p -> (j < length p)%nat).
Hypothesis gens_ok : forall g, In g gens -> okalt (fst g) (snd g).
Lemma pick_pick q p ix : (forall j, In j q -> (j < length p)%nat) -> pick q (pick p ix) = pick (pick q p) ix.
Proof.
  intros H. unfold pick. rewrite map_map. apply map_ext_in. intros j Hj.
  rewrite (nth_indep _ 0%nat ((fun j => nth j ix 0%nat) 0%nat)) by (rewrite map_length; auto). now rewrite (map_nth (fun j => nth j ix 0%nat)).
Qed.
Lemma compo_ok k k1 p s g : okalt k (k1, p, s) -> In g (gens_of k1) -> length (snd (fst g)) = length p -> okalt k (compo p s g).
Proof.
  intros (H1 & H2) Hg Hl. unfold gens_of in Hg. apply in_map_iff in Hg as ([k0 g0] & E & Hin). simpl in E. subst g0.
  apply filter_In in Hin as (Hin & E). simpl in E. apply Nat.eqb_eq in E. subst k0. specialize (gens_ok _ Hin). simpl in gens_ok.
  destruct g as [[k2 q] t]. destruct gens_ok as (H3 & H4). simpl in *. unfold pick at 1. split.
  - intros ix Hix. rewrite map_length in Hix. rewrite H1 by lia.
    rewrite H3 by (unfold pick; rewrite map_length; lia).
    rewrite pick_pick by (intros j Hj; rewrite <- Hl; auto). destruct s, t; unfold sgn; simpl; ring.
  - intros j Hj. unfold pick in *. rewrite map_length. apply in_map_iff in Hj as (i & <- & Hi). specialize (H4 i Hi). rewrite Hl in *.
    apply H2. apply nth_In. lia.
Qed.
Lemma addnew_in l : forall acc a, In a (addnew l acc) -> In a acc \/ In a l.
Proof.
  induction l as [|b l IH]; simpl; intros acc a H; [auto|]. destruct (existsb (eqalt b) acc).
  - destruct (IH _ _ H); auto.
  - destruct (IH _ _ H) as [H'|H']; auto. apply in_app_or in H' as [H'|[H'|[]]]; auto.
Qed.
Lemma close_ok k fuel : forall acc, (forall a, In a acc -> okalt k a) -> forall a, In a (close fuel acc) -> okalt k a.
Proof.
  induction fuel as [|f IH]; simpl; intros acc H a Ha; [auto|]. destruct (Nat.eqb _ _); [auto|]. revert a Ha. apply IH.
  intros a Ha. apply addnew_in in Ha as [Ha|Ha]; [auto|]. apply in_flat_map in Ha as ([[k1 p] s] & Hin & Ha).
  apply in_map_iff in Ha as (g & <- & Hg). apply filter_In in Hg as (Hg & El). apply Nat.eqb_eq in El. apply (compo_ok k k1 p s g); auto.
Qed.
Lemma pick_id ix : pick (seq 0 (length ix)) ix = ix.
Proof.
  unfold pick. apply (nth_ext _ _ 0%nat 0%nat); [now rewrite map_length, seq_length|]. intros n Hn. rewrite map_length, seq_length in Hn.
  rewrite (nth_indep _ 0%nat ((fun j => nth j ix 0%nat) 0%nat)) by (now rewrite map_length, seq_length).
  rewrite (map_nth (fun j => nth j ix 0%nat)). now rewrite seq_nth.
Qed.
Lemma closure_ok k a : In a (closure k) -> okalt k a.
Proof.
  unfold closure. destruct (gens_of k) as [|[[k' p] s] r]; [contradiction|]. apply close_ok. intros b [<-|[]]. split.
  - intros ix Hix. rewrite seq_length in Hix. rewrite <- Hix, pick_id. unfold sgn. ring.
  - intros j Hj. rewrite seq_length. apply in_seq in Hj. lia.
Qed.
End Closure.

(** The checker with a table of symmetries; [n] arrays *)
Definition symtab (gens : list (nat * (nat * list nat * bool))) (n : nat) : list (list (nat * list nat * bool)) := map (closure gens) (seq 0 n).
Definition same_tab (tab : list (list (nat * list nat * bool))) (dcan : nat -> nat) (dcls : list nat) (a b : ex) : bool :=
  same (fun k => nth k tab []) dcan dcls a b.
Definition residue_tab (tab : list (list (nat * list nat * bool))) (dcan : nat -> nat) (dcls : list nat) (a b : ex) :=
  residue (fun k => nth k tab []) dcan dcls a b.
Theorem same_tab_sound dim ten gens n tab dcan dcls a b :
  tab = symtab gens n -> (forall d, dim (dcan d) = dim d) -> Forall (fun g => okalt ten (fst g) (snd g)) gens ->
  same_tab tab dcan dcls a b = true -> forall v, den dim ten a v = den dim ten b v.
Proof.
  intros -> Hd Hg Hs. rewrite Forall_forall in Hg.
  assert (K : forall k x, In x (nth k (symtab gens n) []) -> okalt ten k x).
  { intros k x Hx. unfold symtab in Hx. destruct (Nat.lt_ge_cases k n) as [Hk|Hk].
    - rewrite (nth_indep _ [] (closure gens 0)) in Hx by (now rewrite map_length, seq_length).
      rewrite map_nth, seq_nth in Hx by exact Hk. now apply (closure_ok ten gens Hg).
    - rewrite nth_overflow in Hx by (rewrite map_length, seq_length; exact Hk). contradiction. }
  apply (same_sound dim ten (fun k => nth k (symtab gens n) []) dcan dcls Hd).
  - intros k k' p s Hin. apply (K _ _ Hin).
  - intros k k' p s Hin. apply (K _ _ Hin).
  - exact Hs.
Qed.

(** Arrays as functions of a list of indices *)
Definition ap1 (f : nat -> R) (l : list nat) : R := match l with [a] => f a | _ => 0 end.
Definition ap2 (f : nat -> nat -> R) (l : list nat) : R := match l with [a; b] => f a b | _ => 0 end.
Definition ap3 (f : nat -> nat -> nat -> R) (l : list nat) : R := match l with [a; b; c] => f a b c | _ => 0 end.
Definition ap4 (f : nat -> nat -> nat -> nat -> R) (l : list nat) : R := match l with [a; b; c; d] => f a b c d | _ => 0 end.
Definition ap5 (f : nat -> nat -> nat -> nat -> nat -> R) (l : list nat) : R := match l with [a; b; c; d; e] => f a b c d e | _ => 0 end.
Definition ap6 (f : nat -> nat -> nat -> nat -> nat -> nat -> R) (l : list nat) : R := match l with [a; b; c; d; e; g] => f a b c d e g | _ => 0 end.
Definition tenv (fs : list (list nat -> R)) (k : nat) (l : list nat) : R := nth k fs (fun _ => 0) l.
Definition denv (ds : list nat) (d : nat) : nat := nth d ds 0%nat.
Definition venv (l : list nat) (x : nat) : nat := nth x l 0%nat.
