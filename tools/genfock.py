import itertools
ov='ov'
blocks=[''.join(b) for b in itertools.product(ov,repeat=4)]
names=[f'i_{s}_{x}{y}' for s in 'ab' for x in ov for y in ov]+[f'i_{s}_{b}' for s in ('aa','ab','bb') for b in blocks]
tn=['x_a','x_b','x_aa','x_ab','x_bb','x_aaa','x_aab','x_abb','x_bbb']
ID={n:i+len(tn) for i,n in enumerate(names)}
o=[]
o.append('''(** Generated by tools/genfock.py: the arrays of the program (blocks of the Hamiltonian, amplitudes, delta) as a numbered list with their permutational
    symmetries, for the checker of FockWick.v (proof support), and the arrays that belong to a Hamiltonian in second quantisation. *)
From Coq Require Import Reals Arith List.
From Verif Require Import RSum IntegralsModel TensorObjs TensorAlg TensorSpec FockSpec.
Import ListNotations.
Local Open Scope R_scope.
''')
arr=[]
for n in tn:
    k={1:'ap2',2:'ap4',3:'ap6'}[len(n)-2]; arr.append(f'{k} ({n} T)')
for n in names:
    arr.append(('ap4' if len(n)==9 else 'ap2')+f' ({n} H)')
arr.append('ap2 delta')
o.append('Definition fock_arrays (H : ints) (T : amps) : list (list nat -> R) :=\n  ['+';\n   '.join('; '.join(arr[i:i+4]) for i in range(0,len(arr),4))+'].')
g=[]
for s in ('aa','bb'):
    for b in blocks:
        k=ID[f'i_{s}_{b}']
        g.append((k,ID[f'i_{s}_{b[1]+b[0]+b[2:]}'],[1,0,2,3])); g.append((k,ID[f'i_{s}_{b[:2]+b[3]+b[2]}'],[0,1,3,2]))
nT=0
g+= [(nT+2,nT+2,[1,0,2,3]),(nT+2,nT+2,[0,1,3,2]),(nT+4,nT+4,[1,0,2,3]),(nT+4,nT+4,[0,1,3,2])]
o.append('Local Open Scope nat_scope.\nDefinition fock_gens : list (nat * (nat * list nat * bool)) :=\n  ['+';\n   '.join('; '.join(f'({a}, ({b}, {str(p).replace(",",";")}, false))' for a,b,p in g[i:i+5]) for i in range(0,len(g),5))+'].')
n=len(arr)
o.append(f'Definition fock_tab := Eval vm_compute in symtab fock_gens {n}.\nDefinition kdelta : nat := {n-1}.\nLocal Open Scope R_scope.')
open(__import__('sys').argv[1] if len(__import__('sys').argv)>1 else 'rocq/theories/FockArrays.v','w').write('\n'.join(o)+'\n')
