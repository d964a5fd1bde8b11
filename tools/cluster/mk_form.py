o='''(** The program's formulas applied to the coefficients of exp(T) give T. *)
From Coq Require Import Reals List Arith Bool Lra Lia.
From Verif Require Import TensorObjs PspaceSpec ScatterModel ClusterModel ClusterSpec ClusterAlg.
Import ListNotations.
Open Scope R_scope.

Notation Sa a := (Alpha, a).
Notation Sb a := (Beta, a).
Local Opaque cexp.
Section Form.
Variable D : dims.
Variable T : oper.
Hypothesis HT : cluster_op T.
Variable C : ci3.
'''
size={'a':('nua D','noa D'),'b':('nub D','nob D')}
blocks=['a','b','aa','ab','bb','aaa','aab','abb','bbb']
def so(sp,x): return ('Sa ' if sp=='a' else 'Sb ')+x
N='abcd';Hn='ijkl'
def quant(bl):
    n=len(bl); P=N[:n];H=Hn[:n]
    v=' '.join(P)+' '+' '.join(H)
    hyp=' -> '.join('(%s < %s)%%nat'%(x,size[s][0]) for x,s in zip(P,bl))+' -> '+' -> '.join('(%s < %s)%%nat'%(x,size[s][1]) for x,s in zip(H,bl))
    lst='[%s] [%s]'%('; '.join(so(s,x) for x,s in zip(P,bl)),'; '.join(so(s,x) for x,s in zip(H,bl)))
    idx='[%s]'%'; '.join(list(P)+list(H))
    return v,hyp,lst,idx
for bl in blocks:
    v,hyp,lst,idx=quant(bl)
    o+='Hypothesis H_%s : forall %s, %s -> c_%s C %s = cexp T %s.\n'%(bl,v,hyp,bl,idx,lst)
o+='''
Lemma T0 : T [] [] = 0. Proof. apply HT. Qed.
Lemma P2 : forall x y Q H, T (x :: y :: Q) H = - T (y :: x :: Q) H.
Proof. intros. apply (op_particles T (cl_op T HT) [] x y Q H). Qed.
Lemma P3 : forall z x y Q H, T (z :: x :: y :: Q) H = - T (z :: y :: x :: Q) H.
Proof. intros. apply (op_particles T (cl_op T HT) [z] x y Q H). Qed.
Lemma H2 : forall x y P Q, T P (x :: y :: Q) = - T P (y :: x :: Q).
Proof. intros. apply (op_holes T (cl_op T HT) P [] x y Q). Qed.
Lemma H3 : forall z x y P Q, T P (z :: x :: y :: Q) = - T P (z :: y :: x :: Q).
Proof. intros. apply (op_holes T (cl_op T HT) P [z] x y Q). Qed.
Lemma spin0 : forall P H, (Nat.eqb (count_spin Alpha P) (count_spin Alpha H) && Nat.eqb (count_spin Beta P) (count_spin Beta H))%bool = false -> T P H = 0.
Proof.
  intros P H E. apply Bool.andb_false_iff in E as [E|E]; apply Nat.eqb_neq in E; apply (op_spin T (cl_op T HT)) in E; exact E.
Qed.
Ltac exps := rewrite ?(exp1 T T0), ?(exp2 T T0), ?(exp3 T T0), ?(exp4 T T0).
Ltac spins := repeat match goal with |- context [T ?P ?H] =>
  let e := eval cbv in (Nat.eqb (count_spin Alpha P) (count_spin Alpha H) && Nat.eqb (count_spin Beta P) (count_spin Beta H))%bool in
  lazymatch e with false => rewrite (spin0 P H eq_refl) end end.
Ltac sortp a b := rewrite ?(P2 b a), ?(P3 _ b a).
Ltac sorth i j := rewrite ?(H2 j i), ?(H3 _ j i).
Ltac reads srt := repeat match goal with
  | |- context [c_a C [?a; ?i]] =>
      let E := fresh in eassert (E : c_a C [a; i] = _) by (rewrite (H_a a i) by assumption; rewrite (exp1 T T0); unfold so; reflexivity); rewrite E; clear E
  | |- context [c_b C [?a; ?i]] =>
      let E := fresh in eassert (E : c_b C [a; i] = _) by (rewrite (H_b a i) by assumption; rewrite (exp1 T T0); unfold so; reflexivity); rewrite E; clear E
  | |- context [c_aa C [?a; ?b; ?i; ?j]] =>
      let E := fresh in eassert (E : c_aa C [a; b; i; j] = _) by (rewrite (H_aa a b i j) by assumption; rewrite (exp2 T T0); spins; srt; unfold so; reflexivity); rewrite E; clear E
  | |- context [c_ab C [?a; ?b; ?i; ?j]] =>
      let E := fresh in eassert (E : c_ab C [a; b; i; j] = _) by (rewrite (H_ab a b i j) by assumption; rewrite (exp2 T T0); spins; srt; unfold so; reflexivity); rewrite E; clear E
  | |- context [c_bb C [?a; ?b; ?i; ?j]] =>
      let E := fresh in eassert (E : c_bb C [a; b; i; j] = _) by (rewrite (H_bb a b i j) by assumption; rewrite (exp2 T T0); spins; srt; unfold so; reflexivity); rewrite E; clear E
  | |- context [c_aaa C [?a; ?b; ?c; ?i; ?j; ?k]] =>
      let E := fresh in eassert (E : c_aaa C [a; b; c; i; j; k] = _) by (rewrite (H_aaa a b c i j k) by assumption; rewrite (exp3 T T0); spins; srt; unfold so; reflexivity); rewrite E; clear E
  | |- context [c_aab C [?a; ?b; ?c; ?i; ?j; ?k]] =>
      let E := fresh in eassert (E : c_aab C [a; b; c; i; j; k] = _) by (rewrite (H_aab a b c i j k) by assumption; rewrite (exp3 T T0); spins; srt; unfold so; reflexivity); rewrite E; clear E
  | |- context [c_abb C [?a; ?b; ?c; ?i; ?j; ?k]] =>
      let E := fresh in eassert (E : c_abb C [a; b; c; i; j; k] = _) by (rewrite (H_abb a b c i j k) by assumption; rewrite (exp3 T T0); spins; srt; unfold so; reflexivity); rewrite E; clear E
  | |- context [c_bbb C [?a; ?b; ?c; ?i; ?j; ?k]] =>
      let E := fresh in eassert (E : c_bbb C [a; b; c; i; j; k] = _) by (rewrite (H_bbb a b c i j k) by assumption; rewrite (exp3 T T0); spins; srt; unfold so; reflexivity); rewrite E; clear E
  end.
'''
lemmas=blocks+['aaaa','aaab','aabb','abbb','bbbb']
for bl in lemmas:
    n=len(bl)
    if n==1: continue
    v,hyp,lst,idx=quant(bl)
    args=v
    if n<4:
        stt='forall %s, %s -> f_%s C %s = T %s'%(v,hyp,bl,args,lst)
        c4=''
    else:
        stt='forall %s, %s -> f_%s C (cexp T %s) %s = T %s'%(v,hyp,bl,lst,args,lst)
    o+='Lemma form_%s : %s.\n'%(bl,stt)
    P=N[:n];H=Hn[:n]
    gen=''
    srt=''
    def pairs(X): return [(X[x],X[y]) for x in range(len(X)) for y in range(x+1,len(X))]
    sp=dict(zip(P,bl));sh=dict(zip(H,bl))
    for rep in range(2):
        for x,y in pairs(P): srt+=' sortp (%s) (%s);'%(so(sp[x],x),so(sp[y],y))
        for x,y in pairs(H): srt+=' sorth (%s) (%s);'%(so(sh[x],x),so(sh[y],y))
    o+='Proof.\n  intros. unfold f_%s. let srt := (%s) in reads srt. %sunfold so. ring.\nQed.\n'%(bl,srt.rstrip(';'),'rewrite (exp4 T T0). spins. ' if n==4 else '')
o+='End Form.\n'
open('ClusterForm.v','w').write(o)
