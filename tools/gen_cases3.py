import sys
sys.path.insert(0,'/verif/tools')
from gen_sector3 import METHODS
CL={"o":"noa d","v":"nua d","O":"nob d","V":"nub d"}
def gen(ms):
    o='''(** Sigma vectors of Sector3Model.v evaluated in Q, for the cases shown beside theorems (proof support). *)
From Coq Require Import Reals Arith NArith List Bool Lia Lra QArith Qreals ZArith.
From Verif Require Import RSum IntegralsModel TensorObjs TensorAlg TensorSpec CcsdModel CcsdReify FockSpec FockCcSpec FockTerms FockCheck FockSectorTools QEval Sector3Model Sector3Spec %s.
Import ListNotations.
Local Open Scope Q_scope.
Notation all n f := (forallb f (seq 0 n)).
'''%' '.join(f'Sector{m.capitalize()}Reify' for m in ms)
    for m in ms:
        bl=METHODS[m]['blocks']
        ys=' '.join(f'(y_{b} : {" -> ".join(["nat"]*len(x[0]))} -> Q)' for b,x in bl.items())
        yn=' '.join(f'y_{b}' for b in bl)
        o+=f"Definition {m}_real {ys} : {m}v := mk{m.capitalize()} "+' '.join('(fun '+' '.join('pqrstu'[:len(x[0])])+f' => Q2R (y_{b} '+' '.join('pqrstu'[:len(x[0])])+'))' for b,x in bl.items())+'.\n'
        RQ='['+'; '.join(f'qp{len(x[0])} y_{b}' for b,x in bl.items())+']'
        RS='['+'; '.join(f'ap{len(x[0])} ({m}_{b} ({m}_real {yn}))' for b,x in bl.items())+']'
        o+=f"Definition {m}_check (d : dims) (I : qints) (T : qamps) {ys} (w : Q) : bool :=\n  let ok e l y := Qeq_bool (denq (fdim d) (qenv (qarrays (noa d) (nob d) I T ++ {RQ})) (retag (to_sector 6) e) (venv l)) (w * y) in\n  "
        parts=[]
        for b,x in bl.items():
            v='pqrstu'[:len(x[0])]
            t=f"ok (s_{m}_{b} 10 {' '.join(map(str,range(len(v))))})%nat [{'; '.join(v)}] (y_{b} {' '.join(v)})"
            for q,c in reversed(list(zip(v,x[0]))): t=f"all ({CL[c]}) (fun {q} => {t})"
            parts.append(t)
        o+='\n  && '.join(parts)+'.\n'
        o+=f"Lemma {m}_case d I T {yn} w : {m}_check d I T {yn} w = true -> let H := fock_ints (noa d) (nob d) (real I) in let Y := {m}_real {yn} in {m}_root d ({m}_HR d (hbar_ccsd d H (reala T)) (reala T) Y) Y (Q2R w).\nProof.\n  unfold {m}_check. cbv zeta. rewrite !andb_true_iff. intros "
        n=len(bl)
        pat='K0'
        for k in range(1,n): pat=f'({pat} & K{k})'
        o+=pat+".\n"
        o+=f"  assert (HV : forall e v, den (fdim d) (tenv (jac_arrays d (fock_ints (noa d) (nob d) (real I)) (reala T) (reala T) ++ {RS})) e v = Q2R (denq (fdim d) (qenv (qarrays (noa d) (nob d) I T ++ {RQ})) (retag (to_sector 6) e) v)).\n"
        o+=f"  { '{' } intros e v. refine (qvalue d I T {RS} {RQ} e v _ _); [|cbn [length]; lia]. repeat (apply Forall2_cons; [intros; cbn ["+' '.join([f'{m}_real']+[f'{m}_{b}' for b in bl])+"]; first [apply qp1_ok|apply qp2_ok'|apply qp3_ok|apply qp4_ok'|apply qp5_ok|apply qp6_ok]|]). apply Forall2_nil. }\n"
        o+=f"  unfold {m}_root. repeat match goal with |- _ /\\ _ => split end.\n"
        for k,(b,x) in enumerate(bl.items()):
            o+=f"  - intros {' '.join('pqrstu'[:len(x[0])])} {' '.join('H'+v for v in 'pqrstu'[:len(x[0])])}. "+' '.join(f'apply all_ok with (k := {v}) in K{k}; [|exact H{v}].' for v in 'pqrstu'[:len(x[0])])+f" apply Qeq_bool_eq in K{k}. etransitivity; [|etransitivity; [exact (Qeq_eqR _ _ K{k})|apply Q2R_mult]]. rewrite <- HV. reflexivity.\n"
        o+="Qed.\n"
    return o
if __name__=='__main__':
    open(sys.argv[1]+'/Sector3Cases.v','w').write(gen(sys.argv[2].split(',')))
