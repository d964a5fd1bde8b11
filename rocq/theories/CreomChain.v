(** Generated by tools/gen_creom.py: moments and their derivative, with the similarity-transformed Hamiltonian and its direction as variables (proof support). *)
From Coq Require Import Reals Arith List ZArith FunctionalExtensionality.
From Verif Require Import RSum IntegralsModel TensorObjs TensorAlg CrccModel CreomModel CreomDir.
Import ListNotations.
Local Open Scope R_scope.
(** the intermediate a_ov in terms of the derivative of the similarity-transformed Hamiltonian *)
Definition creomx_X_a_ov (d : dims) (H G : ints) (T Y : amps) : mat2 := fun i a =>
  i_a_ov G i a.
(** the intermediate b_ov in terms of the derivative of the similarity-transformed Hamiltonian *)
Definition creomx_X_b_ov (d : dims) (H G : ints) (T Y : amps) : mat2 := fun i a =>
  i_b_ov G i a.
(** the intermediate aa_vooo in terms of the derivative of the similarity-transformed Hamiltonian *)
Definition creomx_X_aa_vooo (d : dims) (H G : ints) (T Y : amps) : mat4 := fun a m i j =>
  i_aa_vooo G a m i j - sumn (nua d) (fun e => (i_a_ov G m e) * (x_aa T a e i j)) - sumn (nua d) (fun e => (i_a_ov H m e) * (x_aa Y a e i j)).
(** the intermediate aa_vvov in terms of the derivative of the similarity-transformed Hamiltonian *)
Definition creomx_X_aa_vvov (d : dims) (H G : ints) (T Y : amps) : mat4 := fun a b i e =>
  i_aa_vvov G a b i e + sumn (noa d) (fun m => (i_a_ov H m e) * (x_aa Y a b i m)).
(** the intermediate bb_vooo in terms of the derivative of the similarity-transformed Hamiltonian *)
Definition creomx_X_bb_vooo (d : dims) (H G : ints) (T Y : amps) : mat4 := fun a m i j =>
  i_bb_vooo G a m i j - sumn (nub d) (fun e => (i_b_ov G m e) * (x_bb T a e i j)) - sumn (nub d) (fun e => (i_b_ov H m e) * (x_bb Y a e i j)).
(** the intermediate bb_vvov in terms of the derivative of the similarity-transformed Hamiltonian *)
Definition creomx_X_bb_vvov (d : dims) (H G : ints) (T Y : amps) : mat4 := fun a b i e =>
  i_bb_vvov G a b i e + sumn (nob d) (fun m => (i_b_ov H m e) * (x_bb Y a b i m)).
(** the intermediate ab_ovoo in terms of the derivative of the similarity-transformed Hamiltonian *)
Definition creomx_X_ab_ovoo (d : dims) (H G : ints) (T Y : amps) : mat4 := fun m c j k =>
  i_ab_ovoo G m c j k - sumn (nua d) (fun e => (i_a_ov G m e) * (x_ab T e c j k)) - sumn (nua d) (fun e => (i_a_ov H m e) * (x_ab Y e c j k)).
(** the intermediate ab_vooo in terms of the derivative of the similarity-transformed Hamiltonian *)
Definition creomx_X_ab_vooo (d : dims) (H G : ints) (T Y : amps) : mat4 := fun a m j k =>
  i_ab_vooo G a m j k - sumn (nub d) (fun e => (i_b_ov G m e) * (x_ab T a e j k)) - sumn (nub d) (fun e => (i_b_ov H m e) * (x_ab Y a e j k)).
(** the intermediate ab_vvvo in terms of the derivative of the similarity-transformed Hamiltonian *)
Definition creomx_X_ab_vvvo (d : dims) (H G : ints) (T Y : amps) : mat4 := fun b c e k =>
  i_ab_vvvo G b c e k + sumn (noa d) (fun m => (i_a_ov H m e) * (x_ab Y b c m k)).
(** the intermediate ab_vvov in terms of the derivative of the similarity-transformed Hamiltonian *)
Definition creomx_X_ab_vvov (d : dims) (H G : ints) (T Y : amps) : mat4 := fun b c j e =>
  i_ab_vvov G b c j e + sumn (nob d) (fun m => (i_b_ov H m e) * (x_ab Y b c j m)).
Local Open Scope nat_scope.
Definition cp_creomx_X_a_ov (z i a : nat) : ex := (ET 0 [i; a]).
Definition cp_creomx_X_b_ov (z i a : nat) : ex := (ET 1 [i; a]).
Definition cp_creomx_X_aa_vooo (z a m i j : nat) : ex := (ESub (ESub (ET 2 [a; m; i; j]) (ESum (0 + z) 1 (EMul (ET 0 [m; (0 + z)]) (ET 3 [a; (0 + z); i; j])))) (ESum (0 + z) 1 (EMul (ET 4 [m; (0 + z)]) (ET 5 [a; (0 + z); i; j])))).
Definition cp_creomx_X_aa_vvov (z a b i e : nat) : ex := (EAdd (ET 6 [a; b; i; e]) (ESum (0 + z) 0 (EMul (ET 4 [(0 + z); e]) (ET 5 [a; b; i; (0 + z)])))).
Definition cp_creomx_X_bb_vooo (z a m i j : nat) : ex := (ESub (ESub (ET 7 [a; m; i; j]) (ESum (0 + z) 3 (EMul (ET 1 [m; (0 + z)]) (ET 8 [a; (0 + z); i; j])))) (ESum (0 + z) 3 (EMul (ET 9 [m; (0 + z)]) (ET 10 [a; (0 + z); i; j])))).
Definition cp_creomx_X_bb_vvov (z a b i e : nat) : ex := (EAdd (ET 11 [a; b; i; e]) (ESum (0 + z) 2 (EMul (ET 9 [(0 + z); e]) (ET 10 [a; b; i; (0 + z)])))).
Definition cp_creomx_X_ab_ovoo (z m c j k : nat) : ex := (ESub (ESub (ET 12 [m; c; j; k]) (ESum (0 + z) 1 (EMul (ET 0 [m; (0 + z)]) (ET 13 [(0 + z); c; j; k])))) (ESum (0 + z) 1 (EMul (ET 4 [m; (0 + z)]) (ET 14 [(0 + z); c; j; k])))).
Definition cp_creomx_X_ab_vooo (z a m j k : nat) : ex := (ESub (ESub (ET 15 [a; m; j; k]) (ESum (0 + z) 3 (EMul (ET 1 [m; (0 + z)]) (ET 13 [a; (0 + z); j; k])))) (ESum (0 + z) 3 (EMul (ET 9 [m; (0 + z)]) (ET 14 [a; (0 + z); j; k])))).
Definition cp_creomx_X_ab_vvvo (z b c e k : nat) : ex := (EAdd (ET 16 [b; c; e; k]) (ESum (0 + z) 0 (EMul (ET 4 [(0 + z); e]) (ET 14 [b; c; (0 + z); k])))).
Definition cp_creomx_X_ab_vvov (z b c j e : nat) : ex := (EAdd (ET 17 [b; c; j; e]) (ESum (0 + z) 2 (EMul (ET 9 [(0 + z); e]) (ET 14 [b; c; j; (0 + z)])))).
Definition cp_creom_I2A_vvov (z a b i e : nat) : ex := (EAdd (ET 18 [a; b; i; e]) (ESum (0 + z) 0 (EMul (ET 4 [(0 + z); e]) (ET 3 [a; b; i; (0 + z)])))).
Definition cp_creom_X3aaa (z a b c i j k : nat) : ex := (EAdd (EAdd (EAdd (EAdd (EAdd (EScale (-1) 2 (ESum (0 + z) 0 (EMul (ET 19 [a; (0 + z); i; j]) (ET 3 [b; c; (0 + z); k])))) (EScale (1) 2 (ESum (0 + z) 0 (EMul (ET 19 [a; (0 + z); k; j]) (ET 3 [b; c; (0 + z); i]))))) (EScale (1) 2 (ESum (0 + z) 0 (EMul (ET 19 [a; (0 + z); i; k]) (ET 3 [b; c; (0 + z); j]))))) (EScale (1) 2 (ESum (0 + z) 1 (EMul (cp_creom_I2A_vvov (1 + z) a b i (0 + z)) (ET 3 [(0 + z); c; j; k]))))) (EScale (-1) 2 (ESum (0 + z) 1 (EMul (cp_creom_I2A_vvov (1 + z) a b j (0 + z)) (ET 3 [(0 + z); c; i; k]))))) (EScale (-1) 2 (ESum (0 + z) 1 (EMul (cp_creom_I2A_vvov (1 + z) a b k (0 + z)) (ET 3 [(0 + z); c; j; i]))))).
Definition cp_creom_M_aaa (z a b c i j k : nat) : ex := (ESub (ESub (ESub (EAdd (EAdd (cp_creom_X3aaa (0 + z) a b c i j k) (cp_creom_X3aaa (0 + z) b c a i j k)) (cp_creom_X3aaa (0 + z) c a b i j k)) (cp_creom_X3aaa (0 + z) a c b i j k)) (cp_creom_X3aaa (0 + z) b a c i j k)) (cp_creom_X3aaa (0 + z) c b a i j k)).
Definition cp_creom_I2B_ovoo (z m c j k : nat) : ex := (ESub (ET 20 [m; c; j; k]) (ESum (0 + z) 1 (EMul (ET 4 [m; (0 + z)]) (ET 13 [(0 + z); c; j; k])))).
Definition cp_creom_I2B_vooo (z a m i k : nat) : ex := (ESub (ET 21 [a; m; i; k]) (ESum (0 + z) 3 (EMul (ET 9 [m; (0 + z)]) (ET 13 [a; (0 + z); i; k])))).
Definition cp_creom_I2A_vooo (z a m i j : nat) : ex := (ESub (ET 19 [a; m; i; j]) (ESum (0 + z) 1 (EMul (ET 4 [m; (0 + z)]) (ET 3 [a; (0 + z); i; j])))).
Definition cp_creom_X3aab (z a b c i j k : nat) : ex := (EAdd (EAdd (EAdd (EAdd (EAdd (EAdd (EAdd (EAdd (EAdd (EScale (1) 1 (ESum (0 + z) 1 (EMul (ET 3 [a; (0 + z); i; j]) (ET 22 [b; c; (0 + z); k])))) (EScale (1) 2 (ESum (0 + z) 0 (EMul (ET 3 [a; b; (0 + z); i]) (cp_creom_I2B_ovoo (1 + z) (0 + z) c j k))))) (EScale (-1) 2 (ESum (0 + z) 0 (EMul (ET 3 [a; b; (0 + z); j]) (cp_creom_I2B_ovoo (1 + z) (0 + z) c i k))))) (EScale (1) 1 (ESum (0 + z) 3 (EMul (ET 13 [a; (0 + z); i; k]) (ET 23 [b; c; j; (0 + z)]))))) (EScale (-1) 1 (ESum (0 + z) 3 (EMul (ET 13 [a; (0 + z); j; k]) (ET 23 [b; c; i; (0 + z)]))))) (EScale (-1) 1 (ESum (0 + z) 2 (EMul (cp_creom_I2B_vooo (1 + z) a (0 + z) i k) (ET 13 [b; c; j; (0 + z)]))))) (EScale (1) 1 (ESum (0 + z) 2 (EMul (cp_creom_I2B_vooo (1 + z) a (0 + z) j k) (ET 13 [b; c; i; (0 + z)]))))) (EScale (1) 2 (ESum (0 + z) 1 (EMul (ET 18 [a; b; i; (0 + z)]) (ET 13 [(0 + z); c; j; k]))))) (EScale (-1) 2 (ESum (0 + z) 1 (EMul (ET 18 [a; b; j; (0 + z)]) (ET 13 [(0 + z); c; i; k]))))) (EScale (-1) 1 (ESum (0 + z) 0 (EMul (cp_creom_I2A_vooo (1 + z) a (0 + z) i j) (ET 13 [b; c; (0 + z); k]))))).
Definition cp_creom_M_aab (z a b c i j k : nat) : ex := (ESub (cp_creom_X3aab (0 + z) a b c i j k) (cp_creom_X3aab (0 + z) b a c i j k)).
Definition cp_creom_I2B_vooo_1 (z a m i j : nat) : ex := (ESub (ET 21 [a; m; i; j]) (ESum (0 + z) 3 (EMul (ET 9 [m; (0 + z)]) (ET 13 [a; (0 + z); i; j])))).
Definition cp_creom_I2C_vooo (z c m k j : nat) : ex := (ESub (ET 24 [c; m; k; j]) (ESum (0 + z) 3 (EMul (ET 9 [m; (0 + z)]) (ET 8 [c; (0 + z); k; j])))).
Definition cp_creom_I2B_ovoo_1 (z m b i j : nat) : ex := (ESub (ET 20 [m; b; i; j]) (ESum (0 + z) 1 (EMul (ET 4 [m; (0 + z)]) (ET 13 [(0 + z); b; i; j])))).
Definition cp_creom_X3abb (z a b c i j k : nat) : ex := (EAdd (EAdd (EAdd (EAdd (EAdd (EAdd (EAdd (EAdd (EAdd (EScale (1) 1 (ESum (0 + z) 3 (EMul (ET 23 [a; b; i; (0 + z)]) (ET 8 [(0 + z); c; j; k])))) (EScale (-1) 2 (ESum (0 + z) 2 (EMul (cp_creom_I2B_vooo_1 (1 + z) a (0 + z) i j) (ET 8 [b; c; (0 + z); k]))))) (EScale (1) 2 (ESum (0 + z) 2 (EMul (cp_creom_I2B_vooo_1 (1 + z) a (0 + z) i k) (ET 8 [b; c; (0 + z); j]))))) (EScale (1) 2 (ESum (0 + z) 3 (EMul (ET 13 [a; (0 + z); i; j]) (ET 25 [c; b; k; (0 + z)]))))) (EScale (-1) 2 (ESum (0 + z) 3 (EMul (ET 13 [a; (0 + z); i; k]) (ET 25 [c; b; j; (0 + z)]))))) (EScale (-1) 1 (ESum (0 + z) 2 (EMul (ET 13 [a; b; i; (0 + z)]) (cp_creom_I2C_vooo (1 + z) c (0 + z) k j))))) (EScale (1) 1 (ESum (0 + z) 1 (EMul (ET 22 [a; b; (0 + z); j]) (ET 13 [(0 + z); c; i; k]))))) (EScale (-1) 1 (ESum (0 + z) 1 (EMul (ET 22 [a; b; (0 + z); k]) (ET 13 [(0 + z); c; i; j]))))) (EScale (-1) 1 (ESum (0 + z) 0 (EMul (ET 13 [a; b; (0 + z); j]) (cp_creom_I2B_ovoo_1 (1 + z) (0 + z) c i k))))) (EScale (1) 1 (ESum (0 + z) 0 (EMul (ET 13 [a; b; (0 + z); k]) (cp_creom_I2B_ovoo_1 (1 + z) (0 + z) c i j))))).
Definition cp_creom_M_abb (z a b c i j k : nat) : ex := (ESub (cp_creom_X3abb (0 + z) a b c i j k) (cp_creom_X3abb (0 + z) a c b i j k)).
Definition cp_creom_I2C_vvov (z a b i e : nat) : ex := (EAdd (ET 25 [a; b; i; e]) (ESum (0 + z) 2 (EMul (ET 9 [(0 + z); e]) (ET 8 [a; b; i; (0 + z)])))).
Definition cp_creom_X3bbb (z a b c i j k : nat) : ex := (EAdd (EAdd (EAdd (EAdd (EAdd (EScale (-1) 2 (ESum (0 + z) 2 (EMul (ET 24 [a; (0 + z); i; j]) (ET 8 [b; c; (0 + z); k])))) (EScale (1) 2 (ESum (0 + z) 2 (EMul (ET 24 [a; (0 + z); k; j]) (ET 8 [b; c; (0 + z); i]))))) (EScale (1) 2 (ESum (0 + z) 2 (EMul (ET 24 [a; (0 + z); i; k]) (ET 8 [b; c; (0 + z); j]))))) (EScale (1) 2 (ESum (0 + z) 3 (EMul (cp_creom_I2C_vvov (1 + z) a b i (0 + z)) (ET 8 [(0 + z); c; j; k]))))) (EScale (-1) 2 (ESum (0 + z) 3 (EMul (cp_creom_I2C_vvov (1 + z) a b j (0 + z)) (ET 8 [(0 + z); c; i; k]))))) (EScale (-1) 2 (ESum (0 + z) 3 (EMul (cp_creom_I2C_vvov (1 + z) a b k (0 + z)) (ET 8 [(0 + z); c; j; i]))))).
Definition cp_creom_M_bbb (z a b c i j k : nat) : ex := (ESub (ESub (ESub (EAdd (EAdd (cp_creom_X3bbb (0 + z) a b c i j k) (cp_creom_X3bbb (0 + z) b c a i j k)) (cp_creom_X3bbb (0 + z) c a b i j k)) (cp_creom_X3bbb (0 + z) a c b i j k)) (cp_creom_X3bbb (0 + z) b a c i j k)) (cp_creom_X3bbb (0 + z) c b a i j k)).
Definition cp_creom_Y3aaa (z a b c i j k : nat) : ex := (EAdd (EAdd (EAdd (EAdd (EAdd (EAdd (EAdd (EAdd (EAdd (EAdd (EAdd (EScale (1) 2 (ESum (0 + z) 1 (EMul (cp_creomx_X_aa_vvov (1 + z) b a j (0 + z)) (ET 3 [(0 + z); c; i; k])))) (EScale (-1) 2 (ESum (0 + z) 1 (EMul (cp_creomx_X_aa_vvov (1 + z) b a k (0 + z)) (ET 3 [(0 + z); c; i; j]))))) (EScale (-1) 2 (ESum (0 + z) 1 (EMul (cp_creomx_X_aa_vvov (1 + z) b a i (0 + z)) (ET 3 [(0 + z); c; j; k]))))) (EScale (1) 2 (ESum (0 + z) 1 (EMul (ET 18 [b; a; j; (0 + z)]) (ET 5 [(0 + z); c; i; k]))))) (EScale (-1) 2 (ESum (0 + z) 1 (EMul (ET 18 [b; a; k; (0 + z)]) (ET 5 [(0 + z); c; i; j]))))) (EScale (-1) 2 (ESum (0 + z) 1 (EMul (ET 18 [b; a; i; (0 + z)]) (ET 5 [(0 + z); c; j; k]))))) (EScale (-1) 2 (ESum (0 + z) 0 (EMul (ET 3 [a; b; (0 + z); j]) (cp_creomx_X_aa_vooo (1 + z) c (0 + z) k i))))) (EScale (1) 2 (ESum (0 + z) 0 (EMul (ET 3 [a; b; (0 + z); i]) (cp_creomx_X_aa_vooo (1 + z) c (0 + z) k j))))) (EScale (1) 2 (ESum (0 + z) 0 (EMul (ET 3 [a; b; (0 + z); k]) (cp_creomx_X_aa_vooo (1 + z) c (0 + z) j i))))) (EScale (-1) 2 (ESum (0 + z) 0 (EMul (ET 5 [a; b; (0 + z); j]) (ET 19 [c; (0 + z); k; i]))))) (EScale (1) 2 (ESum (0 + z) 0 (EMul (ET 5 [a; b; (0 + z); i]) (ET 19 [c; (0 + z); k; j]))))) (EScale (1) 2 (ESum (0 + z) 0 (EMul (ET 5 [a; b; (0 + z); k]) (ET 19 [c; (0 + z); j; i]))))).
Definition cp_creom_N_aaa (z a b c i j k : nat) : ex := (ESub (ESub (ESub (EAdd (EAdd (cp_creom_Y3aaa (0 + z) a b c i j k) (cp_creom_Y3aaa (0 + z) b c a i j k)) (cp_creom_Y3aaa (0 + z) c a b i j k)) (cp_creom_Y3aaa (0 + z) a c b i j k)) (cp_creom_Y3aaa (0 + z) b a c i j k)) (cp_creom_Y3aaa (0 + z) c b a i j k)).
Definition cp_creom_Y3aab (z a b c i j k : nat) : ex := (EAdd (EAdd (EAdd (EAdd (EAdd (EAdd (EAdd (EAdd (EAdd (EAdd (EAdd (EAdd (EAdd (EAdd (EAdd (EAdd (EAdd (EAdd (EAdd (EScale (1) 1 (ESum (0 + z) 1 (EMul (ET 3 [a; (0 + z); i; j]) (cp_creomx_X_ab_vvvo (1 + z) b c (0 + z) k)))) (EScale (1) 1 (ESum (0 + z) 1 (EMul (ET 5 [a; (0 + z); i; j]) (ET 22 [b; c; (0 + z); k]))))) (EScale (1) 2 (ESum (0 + z) 0 (EMul (ET 3 [a; b; (0 + z); i]) (cp_creomx_X_ab_ovoo (1 + z) (0 + z) c j k))))) (EScale (-1) 2 (ESum (0 + z) 0 (EMul (ET 3 [a; b; (0 + z); j]) (cp_creomx_X_ab_ovoo (1 + z) (0 + z) c i k))))) (EScale (1) 2 (ESum (0 + z) 0 (EMul (ET 5 [a; b; (0 + z); i]) (ET 20 [(0 + z); c; j; k]))))) (EScale (-1) 2 (ESum (0 + z) 0 (EMul (ET 5 [a; b; (0 + z); j]) (ET 20 [(0 + z); c; i; k]))))) (EScale (1) 2 (ESum (0 + z) 1 (EMul (cp_creomx_X_aa_vvov (1 + z) b a j (0 + z)) (ET 13 [(0 + z); c; i; k]))))) (EScale (-1) 2 (ESum (0 + z) 1 (EMul (cp_creomx_X_aa_vvov (1 + z) b a i (0 + z)) (ET 13 [(0 + z); c; j; k]))))) (EScale (1) 2 (ESum (0 + z) 1 (EMul (ET 18 [b; a; j; (0 + z)]) (ET 14 [(0 + z); c; i; k]))))) (EScale (-1) 2 (ESum (0 + z) 1 (EMul (ET 18 [b; a; i; (0 + z)]) (ET 14 [(0 + z); c; j; k]))))) (EScale (-1) 1 (ESum (0 + z) 0 (EMul (cp_creomx_X_aa_vooo (1 + z) a (0 + z) i j) (ET 13 [b; c; (0 + z); k]))))) (EScale (-1) 1 (ESum (0 + z) 0 (EMul (ET 19 [a; (0 + z); i; j]) (ET 14 [b; c; (0 + z); k]))))) (EScale (1) 1 (ESum (0 + z) 3 (EMul (ET 13 [a; (0 + z); i; k]) (cp_creomx_X_ab_vvov (1 + z) b c j (0 + z)))))) (EScale (-1) 1 (ESum (0 + z) 3 (EMul (ET 13 [a; (0 + z); j; k]) (cp_creomx_X_ab_vvov (1 + z) b c i (0 + z)))))) (EScale (1) 1 (ESum (0 + z) 3 (EMul (ET 14 [a; (0 + z); i; k]) (ET 23 [b; c; j; (0 + z)]))))) (EScale (-1) 1 (ESum (0 + z) 3 (EMul (ET 14 [a; (0 + z); j; k]) (ET 23 [b; c; i; (0 + z)]))))) (EScale (-1) 1 (ESum (0 + z) 2 (EMul (cp_creomx_X_ab_vooo (1 + z) a (0 + z) i k) (ET 13 [b; c; j; (0 + z)]))))) (EScale (1) 1 (ESum (0 + z) 2 (EMul (cp_creomx_X_ab_vooo (1 + z) a (0 + z) j k) (ET 13 [b; c; i; (0 + z)]))))) (EScale (-1) 1 (ESum (0 + z) 2 (EMul (ET 21 [a; (0 + z); i; k]) (ET 14 [b; c; j; (0 + z)]))))) (EScale (1) 1 (ESum (0 + z) 2 (EMul (ET 21 [a; (0 + z); j; k]) (ET 14 [b; c; i; (0 + z)]))))).
Definition cp_creom_N_aab (z a b c i j k : nat) : ex := (ESub (cp_creom_Y3aab (0 + z) a b c i j k) (cp_creom_Y3aab (0 + z) b a c i j k)).
Definition cp_creom_Y3abb (z a b c i j k : nat) : ex := (EAdd (EAdd (EAdd (EAdd (EAdd (EAdd (EAdd (EAdd (EAdd (EAdd (EAdd (EAdd (EAdd (EAdd (EAdd (EAdd (EAdd (EAdd (EAdd (EScale (1) 1 (ESum (0 + z) 3 (EMul (cp_creomx_X_ab_vvov (1 + z) a b i (0 + z)) (ET 8 [(0 + z); c; j; k])))) (EScale (1) 1 (ESum (0 + z) 3 (EMul (ET 23 [a; b; i; (0 + z)]) (ET 10 [(0 + z); c; j; k]))))) (EScale (-1) 2 (ESum (0 + z) 2 (EMul (cp_creomx_X_ab_vooo (1 + z) a (0 + z) i j) (ET 8 [b; c; (0 + z); k]))))) (EScale (1) 2 (ESum (0 + z) 2 (EMul (cp_creomx_X_ab_vooo (1 + z) a (0 + z) i k) (ET 8 [b; c; (0 + z); j]))))) (EScale (-1) 2 (ESum (0 + z) 2 (EMul (ET 21 [a; (0 + z); i; j]) (ET 10 [b; c; (0 + z); k]))))) (EScale (1) 2 (ESum (0 + z) 2 (EMul (ET 21 [a; (0 + z); i; k]) (ET 10 [b; c; (0 + z); j]))))) (EScale (1) 2 (ESum (0 + z) 3 (EMul (ET 13 [a; (0 + z); i; k]) (cp_creomx_X_bb_vvov (1 + z) b c j (0 + z)))))) (EScale (-1) 2 (ESum (0 + z) 3 (EMul (ET 13 [a; (0 + z); i; j]) (cp_creomx_X_bb_vvov (1 + z) b c k (0 + z)))))) (EScale (1) 2 (ESum (0 + z) 3 (EMul (ET 14 [a; (0 + z); i; k]) (ET 25 [b; c; j; (0 + z)]))))) (EScale (-1) 2 (ESum (0 + z) 3 (EMul (ET 14 [a; (0 + z); i; j]) (ET 25 [b; c; k; (0 + z)]))))) (EScale (-1) 1 (ESum (0 + z) 2 (EMul (ET 13 [a; b; i; (0 + z)]) (cp_creomx_X_bb_vooo (1 + z) c (0 + z) k j))))) (EScale (-1) 1 (ESum (0 + z) 2 (EMul (ET 14 [a; b; i; (0 + z)]) (ET 24 [c; (0 + z); k; j]))))) (EScale (1) 1 (ESum (0 + z) 1 (EMul (cp_creomx_X_ab_vvvo (1 + z) a b (0 + z) j) (ET 13 [(0 + z); c; i; k]))))) (EScale (-1) 1 (ESum (0 + z) 1 (EMul (cp_creomx_X_ab_vvvo (1 + z) a b (0 + z) k) (ET 13 [(0 + z); c; i; j]))))) (EScale (1) 1 (ESum (0 + z) 1 (EMul (ET 22 [a; b; (0 + z); j]) (ET 14 [(0 + z); c; i; k]))))) (EScale (-1) 1 (ESum (0 + z) 1 (EMul (ET 22 [a; b; (0 + z); k]) (ET 14 [(0 + z); c; i; j]))))) (EScale (-1) 1 (ESum (0 + z) 0 (EMul (ET 13 [a; b; (0 + z); j]) (cp_creomx_X_ab_ovoo (1 + z) (0 + z) c i k))))) (EScale (1) 1 (ESum (0 + z) 0 (EMul (ET 13 [a; b; (0 + z); k]) (cp_creomx_X_ab_ovoo (1 + z) (0 + z) c i j))))) (EScale (-1) 1 (ESum (0 + z) 0 (EMul (ET 14 [a; b; (0 + z); j]) (ET 20 [(0 + z); c; i; k]))))) (EScale (1) 1 (ESum (0 + z) 0 (EMul (ET 14 [a; b; (0 + z); k]) (ET 20 [(0 + z); c; i; j]))))).
Definition cp_creom_N_abb (z a b c i j k : nat) : ex := (ESub (cp_creom_Y3abb (0 + z) a b c i j k) (cp_creom_Y3abb (0 + z) a c b i j k)).
Definition cp_creom_Y3bbb (z a b c i j k : nat) : ex := (EAdd (EAdd (EAdd (EAdd (EAdd (EAdd (EAdd (EAdd (EAdd (EAdd (EAdd (EScale (1) 2 (ESum (0 + z) 3 (EMul (cp_creomx_X_bb_vvov (1 + z) b a j (0 + z)) (ET 8 [(0 + z); c; i; k])))) (EScale (-1) 2 (ESum (0 + z) 3 (EMul (cp_creomx_X_bb_vvov (1 + z) b a k (0 + z)) (ET 8 [(0 + z); c; i; j]))))) (EScale (-1) 2 (ESum (0 + z) 3 (EMul (cp_creomx_X_bb_vvov (1 + z) b a i (0 + z)) (ET 8 [(0 + z); c; j; k]))))) (EScale (1) 2 (ESum (0 + z) 3 (EMul (ET 25 [b; a; j; (0 + z)]) (ET 10 [(0 + z); c; i; k]))))) (EScale (-1) 2 (ESum (0 + z) 3 (EMul (ET 25 [b; a; k; (0 + z)]) (ET 10 [(0 + z); c; i; j]))))) (EScale (-1) 2 (ESum (0 + z) 3 (EMul (ET 25 [b; a; i; (0 + z)]) (ET 10 [(0 + z); c; j; k]))))) (EScale (-1) 2 (ESum (0 + z) 2 (EMul (ET 8 [a; b; (0 + z); j]) (cp_creomx_X_bb_vooo (1 + z) c (0 + z) k i))))) (EScale (1) 2 (ESum (0 + z) 2 (EMul (ET 8 [a; b; (0 + z); i]) (cp_creomx_X_bb_vooo (1 + z) c (0 + z) k j))))) (EScale (1) 2 (ESum (0 + z) 2 (EMul (ET 8 [a; b; (0 + z); k]) (cp_creomx_X_bb_vooo (1 + z) c (0 + z) j i))))) (EScale (-1) 2 (ESum (0 + z) 2 (EMul (ET 10 [a; b; (0 + z); j]) (ET 24 [c; (0 + z); k; i]))))) (EScale (1) 2 (ESum (0 + z) 2 (EMul (ET 10 [a; b; (0 + z); i]) (ET 24 [c; (0 + z); k; j]))))) (EScale (1) 2 (ESum (0 + z) 2 (EMul (ET 10 [a; b; (0 + z); k]) (ET 24 [c; (0 + z); j; i]))))).
Definition cp_creom_N_bbb (z a b c i j k : nat) : ex := (ESub (ESub (ESub (EAdd (EAdd (cp_creom_Y3bbb (0 + z) a b c i j k) (cp_creom_Y3bbb (0 + z) b c a i j k)) (cp_creom_Y3bbb (0 + z) c a b i j k)) (cp_creom_Y3bbb (0 + z) a c b i j k)) (cp_creom_Y3bbb (0 + z) b a c i j k)) (cp_creom_Y3bbb (0 + z) c b a i j k)).
Definition cp_arrays (d : dims) (H G : ints) (T Y : amps) := [ap2 (i_a_ov G);
  ap2 (i_b_ov G);
  ap4 (i_aa_vooo G);
  ap4 (x_aa T);
  ap2 (i_a_ov H);
  ap4 (x_aa Y);
  ap4 (i_aa_vvov G);
  ap4 (i_bb_vooo G);
  ap4 (x_bb T);
  ap2 (i_b_ov H);
  ap4 (x_bb Y);
  ap4 (i_bb_vvov G);
  ap4 (i_ab_ovoo G);
  ap4 (x_ab T);
  ap4 (x_ab Y);
  ap4 (i_ab_vooo G);
  ap4 (i_ab_vvvo G);
  ap4 (i_ab_vvov G);
  ap4 (i_aa_vvov H);
  ap4 (i_aa_vooo H);
  ap4 (i_ab_ovoo H);
  ap4 (i_ab_vooo H);
  ap4 (i_ab_vvvo H);
  ap4 (i_ab_vvov H);
  ap4 (i_bb_vooo H);
  ap4 (i_bb_vvov H);
  ap2 (x_a T);
  ap2 (x_a Y);
  ap2 (x_b T);
  ap2 (x_b Y)].
Definition cp_gens : list (nat * (nat * list nat * bool)) := [(2, (2, [0; 1; 3; 2], false));
  (3, (3, [1; 0; 2; 3], false));
  (3, (3, [0; 1; 3; 2], false));
  (5, (5, [1; 0; 2; 3], false));
  (5, (5, [0; 1; 3; 2], false));
  (6, (6, [1; 0; 2; 3], false));
  (7, (7, [0; 1; 3; 2], false));
  (8, (8, [1; 0; 2; 3], false));
  (8, (8, [0; 1; 3; 2], false));
  (10, (10, [1; 0; 2; 3], false));
  (10, (10, [0; 1; 3; 2], false));
  (11, (11, [1; 0; 2; 3], false));
  (18, (18, [1; 0; 2; 3], false));
  (19, (19, [0; 1; 3; 2], false));
  (24, (24, [0; 1; 3; 2], false));
  (25, (25, [1; 0; 2; 3], false))].
Definition cp_tab := Eval vm_compute in symtab cp_gens 30.
Definition cp_dm (k : nat) : option nat := match k with | 26 => Some 27 | 28 => Some 29 | 3 => Some 5 | 13 => Some 14 | 8 => Some 10 | 4 => Some 0 | 9 => Some 1 | 19 => Some 2 | 18 => Some 6 | 24 => Some 7 | 25 => Some 11 | 20 => Some 12 | 21 => Some 15 | 22 => Some 16 | 23 => Some 17 | _ => None end.
Definition cpm_aaa : ex := cp_creom_M_aaa 6 0 1 2 3 4 5.
Definition cpn_aaa : ex := cp_creom_N_aaa 6 0 1 2 3 4 5.
Definition cpm_aab : ex := cp_creom_M_aab 6 0 1 2 3 4 5.
Definition cpn_aab : ex := cp_creom_N_aab 6 0 1 2 3 4 5.
Definition cpm_abb : ex := cp_creom_M_abb 6 0 1 2 3 4 5.
Definition cpn_abb : ex := cp_creom_N_abb 6 0 1 2 3 4 5.
Definition cpm_bbb : ex := cp_creom_M_bbb 6 0 1 2 3 4 5.
Definition cpn_bbb : ex := cp_creom_N_bbb 6 0 1 2 3 4 5.
(** The derivative of the blocks the moments read; the other blocks are not used *)
Definition creom_dir (d : dims) (H0 H : ints) (T Y L : amps) : ints := mkInts (fun _ _ => 0%R) (creom_G_a_ov d H0 H T Y L) (fun _ _ => 0%R) (fun _ _ => 0%R) (fun _ _ => 0%R) (creom_G_b_ov d H0 H T Y L) (fun _ _ => 0%R) (fun _ _ => 0%R) (fun _ _ _ _ => 0%R) (fun _ _ _ _ => 0%R) (fun _ _ _ _ => 0%R) (fun _ _ _ _ => 0%R) (fun _ _ _ _ => 0%R) (fun _ _ _ _ => 0%R) (fun _ _ _ _ => 0%R) (fun _ _ _ _ => 0%R) (creom_G_aa_vooo d H0 H T Y L) (fun _ _ _ _ => 0%R) (fun _ _ _ _ => 0%R) (fun _ _ _ _ => 0%R) (fun _ _ _ _ => 0%R) (creom_G_aa_vvov d H0 H T Y L) (fun _ _ _ _ => 0%R) (fun _ _ _ _ => 0%R) (fun _ _ _ _ => 0%R) (fun _ _ _ _ => 0%R) (fun _ _ _ _ => 0%R) (fun _ _ _ _ => 0%R) (creom_G_ab_ovoo d H0 H T Y L) (fun _ _ _ _ => 0%R) (fun _ _ _ _ => 0%R) (fun _ _ _ _ => 0%R) (creom_G_ab_vooo d H0 H T Y L) (fun _ _ _ _ => 0%R) (fun _ _ _ _ => 0%R) (fun _ _ _ _ => 0%R) (fun _ _ _ _ => 0%R) (creom_G_ab_vvov d H0 H T Y L) (creom_G_ab_vvvo d H0 H T Y L) (fun _ _ _ _ => 0%R) (fun _ _ _ _ => 0%R) (fun _ _ _ _ => 0%R) (fun _ _ _ _ => 0%R) (fun _ _ _ _ => 0%R) (fun _ _ _ _ => 0%R) (fun _ _ _ _ => 0%R) (fun _ _ _ _ => 0%R) (fun _ _ _ _ => 0%R) (creom_G_bb_vooo d H0 H T Y L) (fun _ _ _ _ => 0%R) (fun _ _ _ _ => 0%R) (fun _ _ _ _ => 0%R) (fun _ _ _ _ => 0%R) (creom_G_bb_vvov d H0 H T Y L) (fun _ _ _ _ => 0%R) (fun _ _ _ _ => 0%R).
Local Open Scope R_scope.
Section X.
Variables (d : dims) (H0 H : ints) (T Y L : amps).
Notation G := (creom_dir d H0 H T Y L).
Lemma xs_a_ov : creom_X_a_ov d H0 H T Y L = creomx_X_a_ov d H G T Y.
Proof. extensionality p. extensionality q. unfold creomx_X_a_ov, creom_dir; cbn [i_a_ov i_b_ov i_aa_vooo i_aa_vvov i_ab_ovoo i_ab_vooo i_ab_vvov i_ab_vvvo i_bb_vooo i_bb_vvov]. unfold creom_G_a_ov. ring. Qed.
Lemma xs_b_ov : creom_X_b_ov d H0 H T Y L = creomx_X_b_ov d H G T Y.
Proof. extensionality p. extensionality q. unfold creomx_X_b_ov, creom_dir; cbn [i_a_ov i_b_ov i_aa_vooo i_aa_vvov i_ab_ovoo i_ab_vooo i_ab_vvov i_ab_vvvo i_bb_vooo i_bb_vvov]. unfold creom_G_b_ov. ring. Qed.
Lemma xs_aa_vooo : creom_X_aa_vooo_1 d H0 H T Y L = creomx_X_aa_vooo d H G T Y.
Proof. extensionality p. extensionality q. extensionality r. extensionality s. unfold creomx_X_aa_vooo, creom_dir; cbn [i_a_ov i_b_ov i_aa_vooo i_aa_vvov i_ab_ovoo i_ab_vooo i_ab_vvov i_ab_vvvo i_bb_vooo i_bb_vvov]. unfold creom_G_aa_vooo, creom_G_a_ov, creom_G_b_ov. ring. Qed.
Lemma xs_aa_vvov : creom_X_aa_vvov_1 d H0 H T Y L = creomx_X_aa_vvov d H G T Y.
Proof. extensionality p. extensionality q. extensionality r. extensionality s. unfold creomx_X_aa_vvov, creom_dir; cbn [i_a_ov i_b_ov i_aa_vooo i_aa_vvov i_ab_ovoo i_ab_vooo i_ab_vvov i_ab_vvvo i_bb_vooo i_bb_vvov]. unfold creom_G_aa_vvov, creom_G_a_ov, creom_G_b_ov. ring. Qed.
Lemma xs_bb_vooo : creom_X_bb_vooo_1 d H0 H T Y L = creomx_X_bb_vooo d H G T Y.
Proof. extensionality p. extensionality q. extensionality r. extensionality s. unfold creomx_X_bb_vooo, creom_dir; cbn [i_a_ov i_b_ov i_aa_vooo i_aa_vvov i_ab_ovoo i_ab_vooo i_ab_vvov i_ab_vvvo i_bb_vooo i_bb_vvov]. unfold creom_G_bb_vooo, creom_G_a_ov, creom_G_b_ov. ring. Qed.
Lemma xs_bb_vvov : creom_X_bb_vvov_1 d H0 H T Y L = creomx_X_bb_vvov d H G T Y.
Proof. extensionality p. extensionality q. extensionality r. extensionality s. unfold creomx_X_bb_vvov, creom_dir; cbn [i_a_ov i_b_ov i_aa_vooo i_aa_vvov i_ab_ovoo i_ab_vooo i_ab_vvov i_ab_vvvo i_bb_vooo i_bb_vvov]. unfold creom_G_bb_vvov, creom_G_a_ov, creom_G_b_ov. ring. Qed.
Lemma xs_ab_ovoo : creom_X_ab_ovoo d H0 H T Y L = creomx_X_ab_ovoo d H G T Y.
Proof. extensionality p. extensionality q. extensionality r. extensionality s. unfold creomx_X_ab_ovoo, creom_dir; cbn [i_a_ov i_b_ov i_aa_vooo i_aa_vvov i_ab_ovoo i_ab_vooo i_ab_vvov i_ab_vvvo i_bb_vooo i_bb_vvov]. unfold creom_G_ab_ovoo, creom_G_a_ov, creom_G_b_ov. ring. Qed.
Lemma xs_ab_vooo : creom_X_ab_vooo d H0 H T Y L = creomx_X_ab_vooo d H G T Y.
Proof. extensionality p. extensionality q. extensionality r. extensionality s. unfold creomx_X_ab_vooo, creom_dir; cbn [i_a_ov i_b_ov i_aa_vooo i_aa_vvov i_ab_ovoo i_ab_vooo i_ab_vvov i_ab_vvvo i_bb_vooo i_bb_vvov]. unfold creom_G_ab_vooo, creom_G_a_ov, creom_G_b_ov. ring. Qed.
Lemma xs_ab_vvvo : creom_X_ab_vvvo d H0 H T Y L = creomx_X_ab_vvvo d H G T Y.
Proof. extensionality p. extensionality q. extensionality r. extensionality s. unfold creomx_X_ab_vvvo, creom_dir; cbn [i_a_ov i_b_ov i_aa_vooo i_aa_vvov i_ab_ovoo i_ab_vooo i_ab_vvov i_ab_vvvo i_bb_vooo i_bb_vvov]. unfold creom_G_ab_vvvo, creom_G_a_ov, creom_G_b_ov. ring. Qed.
Lemma xs_ab_vvov : creom_X_ab_vvov d H0 H T Y L = creomx_X_ab_vvov d H G T Y.
Proof. extensionality p. extensionality q. extensionality r. extensionality s. unfold creomx_X_ab_vvov, creom_dir; cbn [i_a_ov i_b_ov i_aa_vooo i_aa_vvov i_ab_ovoo i_ab_vooo i_ab_vvov i_ab_vvvo i_bb_vooo i_bb_vvov]. unfold creom_G_ab_vvov, creom_G_a_ov, creom_G_b_ov. ring. Qed.
Lemma cn_aaa a b c i j k : creom_N_aaa d H0 H T Y L a b c i j k = den (denv [noa d; nua d; nob d; nub d]) (tenv (cp_arrays d H G T Y)) cpn_aaa (venv [a; b; c; i; j; k]).
Proof. unfold creom_N_aaa, creom_Y3aaa. rewrite ?xs_aa_vooo, ?xs_aa_vvov, ?xs_bb_vooo, ?xs_bb_vvov, ?xs_ab_ovoo, ?xs_ab_vooo, ?xs_ab_vvvo, ?xs_ab_vvov. reflexivity. Qed.
Lemma cn_aab a b c i j k : creom_N_aab d H0 H T Y L a b c i j k = den (denv [noa d; nua d; nob d; nub d]) (tenv (cp_arrays d H G T Y)) cpn_aab (venv [a; b; c; i; j; k]).
Proof. unfold creom_N_aab, creom_Y3aab. rewrite ?xs_aa_vooo, ?xs_aa_vvov, ?xs_bb_vooo, ?xs_bb_vvov, ?xs_ab_ovoo, ?xs_ab_vooo, ?xs_ab_vvvo, ?xs_ab_vvov. reflexivity. Qed.
Lemma cn_abb a b c i j k : creom_N_abb d H0 H T Y L a b c i j k = den (denv [noa d; nua d; nob d; nub d]) (tenv (cp_arrays d H G T Y)) cpn_abb (venv [a; b; c; i; j; k]).
Proof. unfold creom_N_abb, creom_Y3abb. rewrite ?xs_aa_vooo, ?xs_aa_vvov, ?xs_bb_vooo, ?xs_bb_vvov, ?xs_ab_ovoo, ?xs_ab_vooo, ?xs_ab_vvvo, ?xs_ab_vvov. reflexivity. Qed.
Lemma cn_bbb a b c i j k : creom_N_bbb d H0 H T Y L a b c i j k = den (denv [noa d; nua d; nob d; nub d]) (tenv (cp_arrays d H G T Y)) cpn_bbb (venv [a; b; c; i; j; k]).
Proof. unfold creom_N_bbb, creom_Y3bbb. rewrite ?xs_aa_vooo, ?xs_aa_vvov, ?xs_bb_vooo, ?xs_bb_vvov, ?xs_ab_ovoo, ?xs_ab_vooo, ?xs_ab_vvvo, ?xs_ab_vvov. reflexivity. Qed.
End X.
