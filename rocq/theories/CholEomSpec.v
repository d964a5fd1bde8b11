(** What the Cholesky EOM routines take from Hbar (specification side of C84). *)
From Coq Require Import Reals Arith List Bool.
From Verif Require Import RSum IntegralsModel IntegralsSpec TensorObjs FockSpec FockCcSpec.
Open Scope R_scope.
(** the vvvv block of Hbar from one-index-dressed vectors v: <ab||ef> = sum_x (v[x,a,e] v[x,b,f] - v[x,a,f] v[x,b,e]), plus the doubles contribution *)
Definition vvvv_same (no nx : nat) (v : mat3) (oovv t : mat4) : mat4 := fun a b e f =>
  sumn nx (fun x => v x a e * v x b f) - sumn nx (fun x => v x a f * v x b e) + 1 / 2 * sumn no (fun m => sumn no (fun n => oovv m n e f * t a b m n)).
Definition vvvv_opp (noa nob nx : nat) (va vb : mat3) (oovv t : mat4) : mat4 := fun a b e f =>
  sumn nx (fun x => va x a e * vb x b f) + sumn noa (fun m => sumn nob (fun n => oovv m n e f * t a b m n)).
(** the two-body blocks the Cholesky Hbar routine provides: for equal spins one of each class of blocks that are equal up to the sign of a permutation,
    for opposite spins all but vvoo; no vvvv block *)
Definition provided (c : scase) (w x y z : ov) : bool :=
  match w, x, y, z with
  | Oc, Oc, Oc, Oc | Oc, Oc, Oc, Un | Oc, Oc, Un, Un | Un, Oc, Oc, Oc | Un, Oc, Oc, Un | Un, Oc, Un, Un | Un, Un, Oc, Un => true
  | Oc, Oc, Un, Oc | Oc, Un, Oc, Oc | Oc, Un, Oc, Un | Oc, Un, Un, Oc | Oc, Un, Un, Un | Un, Oc, Un, Oc | Un, Un, Un, Oc => match c with AB => true | _ => false end
  | _, _, _, _ => false
  end.
(** two Hamiltonians agree on the one-body blocks (but vo, which is not read) and on the provided two-body blocks *)
Definition provided_equal (A B : ints) : Prop :=
  (forall sp x y, (x, y) <> (Un, Oc) -> forall p q, int_one A sp x y p q = int_one B sp x y p q) /\
  (forall c w x y z, provided c w x y z = true -> forall p q r t, int_two A c w x y z p q r t = int_two B c w x y z p q r t).
