o=''
# (name, model, un, groups, rank, nest lemma, extend, inb, rep, blk, sp, sizes)
def forms(bl): return "form_%s d T HT C"%bl
req="H_needed"
deps={'aa':'G_a G_aa','ab':'','bb':''}
B=[('aa','t2_aa','un_aa','g_aa',4,'in_rows_aa (nua d) (noa d)','extend_aa','inb_aa','rep_aa','blk_aa','aa'),
('bb','t2_bb','un_bb','g_aa',4,'in_rows_aa (nub d) (nob d)','extend_aa','inb_aa','rep_aa','blk_bb','bb'),
('aaa','t3_aaa','un_aaa','g_aaa',6,'in_rows_aaa (nua d) (noa d)','extend_aaa','inb_aaa','rep_aaa','blk_aaa','aaa'),
('aab','t3_aab','un_aab','g_aab',6,'in_rows_aab (nua d) (nub d) (noa d) (nob d)','extend_aab','inb_aab','rep_aab','blk_aab','aab'),
('abb','t3_abb','un_abb','g_abb',6,'in_rows_abb (nua d) (nub d) (noa d) (nob d)','extend_abb','inb_abb','rep_abb','blk_abb','abb'),
('bbb','t3_bbb','un_bbb','g_aaa',6,'in_rows_aaa (nub d) (nob d)','extend_aaa','inb_aaa','rep_aaa','blk_bbb','bbb')]
for n,model,un,g,rank,inr,ext,inbl,rep,blk,sp in B:
    vs='a b i j' if rank==4 else 'a b c i j k'
    pat=' & '.join(vs.split())
    lst='[%s]'%'; '.join(vs.split())
    half=rank//2
    ps='[%s]'%'; '.join(vs.split()[:half]); hs='[%s]'%'; '.join(vs.split()[half:])
    o+=f'''
Lemma res_{n} : exists X, {model} d C = Some X /\\ agree (sh_{n} d) X (where_nonzero (c_{n} C) (block {sp} T)).
Proof.
  unfold {model}, analyse_block.
  match goal with |- context [nest [] ?L] => set (rows := nest [] L) end.
  destruct ({un} d rows (map (val{2 if rank==4 else 3} (c_{n} C) (f_{n} C)) rows)) as (X & E & U).
  - now rewrite map_length.
  - intros r Hr. apply {inr.split()[0]} in Hr as ({pat} & -> & Hr). exists {ps}, {hs}. cbn [nunocc nocc osys nu_a nu_b no_a no_b]. grow_tac.
  - apply nest_NoDup.
  - exists X. split; [exact E|].
    assert (V : forall {vs}, In {lst} rows -> in_bounds (sh_{n} d) {lst} = true -> X {lst} = where_nonzero (c_{n} C) (block {sp} T) {lst}).
    {{ intros {vs} Hr Hb. rewrite (unf_val _ _ _ _ _ U _ Hr). unfold val{2 if rank==4 else 3}, where_nonzero. rewrite when_keep.
      unfold sh_{n} in Hb. inb Hb. rewrite (form_{n} d T HT C FORMARGS_{n}) by assumption. reflexivity. }}
    assert (AY : anti_in {rank} {g} (sh_{n} d) (where_nonzero (c_{n} C) (block {sp} T))).
    {{ apply keep_anti; [|apply {blk}, HT]. apply (agree_anti _ _ _ _ (block {sp} (cexp T))); [apply {inbl}|apply HC|apply {blk}, ea]. }}
    intros l Hl. pose proof (inb_len _ _ Hl) as Ll. cbn [length sh_{n}] in Ll.
    assert (K : forall {vs}, in_bounds (sh_{n} d) {lst} = true -> X {lst} = where_nonzero (c_{n} C) (block {sp} T) {lst}).
    {{ apply ({ext} (fun l => in_bounds (sh_{n} d) l = true -> X l = where_nonzero (c_{n} C) (block {sp} T) l)).
      - apply eq_swap; [apply {inbl}|apply U|exact AY].
      - apply eq_rep; [apply {rep}|apply U|exact AY].
      - intros {vs} {' '.join('O%d'%k for k in range({'aaa':4,'bbb':4}.get(n,2)))} Hb. apply V; [|exact Hb]. unfold sh_{n} in Hb. inb Hb. apply {inr.split()[0]}. exists {', '.join(vs.split())}. split; [reflexivity|lia]. }}
    destruct l as [|a [|b {'[|i [|j [|]]]]]' if rank==4 else '[|c [|i [|j [|k [|]]]]]]]'}; try discriminate Ll. now apply K.
Qed.
'''
need={'aa':'G_a G_aa','bb':'G_b G_bb','aaa':'G_a G_aa G_aaa','aab':'G_a G_b G_aa G_ab G_aab','abb':'G_a G_b G_ab G_bb G_abb','bbb':'G_b G_bb G_bbb'}
for k,v in need.items(): o=o.replace('FORMARGS_%s)'%k,v+')')
o+='''
Lemma res_ab : exists X, t2_ab d C = Some X /\\ agree (sh_ab d) X (where_nonzero (c_ab C) (block ab T)).
Proof.
  unfold t2_ab, analyse_block.
  match goal with |- context [nest [] ?L] => set (rows := nest [] L) end.
  assert (N : NoDup rows) by apply nest_NoDup.
  assert (I : forall r, In r rows -> in_bounds (sh_ab d) r = true).
  { intros r Hr. apply in_rows_ab in Hr as (a & b & i & j & -> & Hr). unfold sh_ab. mkin. }
  assert (G : forall rs T0, NoDup rs -> (forall r, In r rs -> In r rows) ->
    exists X, scatter (sh_ab d) wc_ab (map (map S) rs) (map (val2 (c_ab C) (f_ab C)) rs) (Some T0) = Some X /\\
      forall l, X l = if existsb (list_eqb l) rs then val2 (c_ab C) (f_ab C) l else T0 l).
  { induction rs as [|r rs IH]; intros T0 Nd Hs; cbn [map scatter].
    - exists T0. split; reflexivity.
    - inversion Nd as [|? ? Nr Nd']; subst. unfold scatter_row at 1. rewrite map_S_sub. unfold wc_ab at 2. cbn [fold_left fst snd].
      unfold write at 1. rewrite (I r) by (apply Hs; now left).
      destruct (IH (fun l => if list_eqb l r then val2 (c_ab C) (f_ab C) r else T0 l) Nd') as (X & E & HX); [intros; apply Hs; now right|].
      exists X. split; [exact E|]. intros l. rewrite HX. cbn [existsb]. destruct (list_eqb l r) eqn:El; [|reflexivity].
      apply list_eqb_spec in El. subst l. cbn [orb]. destruct (existsb _ rs); reflexivity. }
  destruct (G rows zero_tensor N (fun r Hr => Hr)) as (X & E & HX). exists X. split; [exact E|].
  intros l Hl. pose proof (inb_len _ _ Hl) as Ll. cbn [length sh_ab] in Ll.
  destruct l as [|a [|b [|i [|j [|]]]]]; try discriminate Ll. unfold sh_ab in Hl. inb Hl.
  rewrite HX. replace (existsb (list_eqb [a; b; i; j]) rows) with true.
  - unfold val2, where_nonzero. rewrite when_keep. rewrite (form_ab d T HT C G_a G_b G_ab) by assumption. reflexivity.
  - symmetry. apply existsb_exists. exists [a; b; i; j]. split; [|now apply list_eqb_spec]. apply in_rows_ab. exists a, b, i, j. split; [reflexivity|lia].
Qed.

Lemma t4_case : forall sp f q,
  (forall row, In row (fst q) -> row_in_range d sp row -> t4_value f row (block sp (cexp T) (map pred row)) = block sp T (map pred row)) ->
  quads_case d sp (cexp T) q -> t4_list f (fst q) (snd q) = map (fun row => block sp T (map pred row)) (fst q).
Proof.
  intros sp f (rows, amps) H (HR & HA). cbn [fst snd] in *. subst amps. unfold t4_list.
  induction rows as [|r rows IH]; cbn [map combine]; [reflexivity|]. cbn [fst snd]. f_equal.
  - apply H; [now left|apply HR; now left].
  - apply IH; intros; [apply H|apply HR]; try assumption; now right.
Qed.
'''
for n,sp in [('aaaa','aaaa'),('aaab','aaab'),('aabb','aabb'),('abbb','abbb4'),('bbbb','bbbb')]:
    fa={'aaaa':'G_a G_aa G_aaa','aaab':'G_a G_b G_aa G_ab G_aaa G_aab','aabb':'G_a G_b G_aa G_ab G_bb G_aab G_abb','abbb':'G_a G_b G_ab G_bb G_abb G_bbb','bbbb':'G_b G_bb G_bbb'}[n]
    o+=f'''Lemma res_{n} : forall q, quads_case d {sp} (cexp T) q -> t4_list (f_{n} C) (fst q) (snd q) = map (fun row => block {sp} T (map pred row)) (fst q).
Proof.
  intros q. apply t4_case. intros row _ (_ & Hb). unfold t4_value. set (l := map pred row) in *. clearbody l.
  pose proof (inb_len _ _ Hb) as Ll. cbn [length map app {sp}] in Ll.
  destruct l as [|a1 [|a2 [|a3 [|a4 [|i1 [|i2 [|i3 [|i4 [|]]]]]]]]]; try discriminate Ll.
  cbn [map app {sp} usize osize] in Hb. inb Hb.
  exact (form_{n} d T HT C {fa} a1 a2 a3 a4 i1 i2 i3 i4 ltac:(assumption) ltac:(assumption) ltac:(assumption) ltac:(assumption) ltac:(assumption) ltac:(assumption) ltac:(assumption) ltac:(assumption)).
Qed.
'''
o+='End Main.\n'
open('app2.v','w').write(o)
