(** Specification vocabulary for EOMCCSDT: derivative of a set of amplitudes with triples at 0, and multiples of such a set. *)
From Coq Require Import Reals.
From Verif Require Import TensorObjs.
Local Open Scope R_scope.
(** Every amplitude of F t, seen as a function of t, has the corresponding amplitude of G as its derivative at 0 *)
Record jacobian3 (F : R -> amps) (G : amps) : Prop := {
  j3_a : forall a i, derivable_pt_lim (fun t => x_a (F t) a i) 0 (x_a G a i);
  j3_b : forall a i, derivable_pt_lim (fun t => x_b (F t) a i) 0 (x_b G a i);
  j3_aa : forall a b i j, derivable_pt_lim (fun t => x_aa (F t) a b i j) 0 (x_aa G a b i j);
  j3_ab : forall a b i j, derivable_pt_lim (fun t => x_ab (F t) a b i j) 0 (x_ab G a b i j);
  j3_bb : forall a b i j, derivable_pt_lim (fun t => x_bb (F t) a b i j) 0 (x_bb G a b i j);
  j3_aaa : forall a b c i j k, derivable_pt_lim (fun t => x_aaa (F t) a b c i j k) 0 (x_aaa G a b c i j k);
  j3_aab : forall a b c i j k, derivable_pt_lim (fun t => x_aab (F t) a b c i j k) 0 (x_aab G a b c i j k);
  j3_abb : forall a b c i j k, derivable_pt_lim (fun t => x_abb (F t) a b c i j k) 0 (x_abb G a b c i j k);
  j3_bbb : forall a b c i j k, derivable_pt_lim (fun t => x_bbb (F t) a b c i j k) 0 (x_bbb G a b c i j k) }.
Definition scale3 (w : R) (X : amps) : amps :=
  mkAmps (fun a i => w * x_a X a i) (fun a i => w * x_b X a i) (fun a b i j => w * x_aa X a b i j) (fun a b i j => w * x_ab X a b i j) (fun a b i j => w * x_bb X a b i j)
    (fun a b c i j k => w * x_aaa X a b c i j k) (fun a b c i j k => w * x_aab X a b c i j k) (fun a b c i j k => w * x_abb X a b c i j k) (fun a b c i j k => w * x_bbb X a b c i j k).
