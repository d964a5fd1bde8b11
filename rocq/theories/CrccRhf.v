(** Generated by tools/gen_crrhf.py: spin symmetry of the CR-CC(2,3) quantities in closed shells (proof support). *)
From Coq Require Import Reals Arith List ZArith.
From Verif Require Import RSum IntegralsModel TensorObjs TensorAlg TensorSpec TensorClosed TensorDeriv EomProps CrccModel.
Import ListNotations.
Local Open Scope nat_scope.
Definition z_crcc_d3aaa_v (z a i b : nat) : ex := (EOpp (ESum (0 + z) 0 (EMul (ET 0 [i; (0 + z); a; b]) (ET 1 [a; b; i; (0 + z)])))).
Definition z_crcc_d3aaa_o (z a i j : nat) : ex := (ESum (0 + z) 1 (EMul (ET 0 [i; j; a; (0 + z)]) (ET 1 [a; (0 + z); i; j]))).
Definition z_crcc_d3aab_v (z a i c : nat) : ex := (EOpp (ESum (0 + z) 2 (EMul (ET 2 [i; (0 + z); a; c]) (ET 3 [a; c; i; (0 + z)])))).
Definition z_crcc_d3aab_o (z a i k : nat) : ex := (ESum (0 + z) 3 (EMul (ET 2 [i; k; a; (0 + z)]) (ET 3 [a; (0 + z); i; k]))).
Definition z_crcc_d3abb_v (z a k c : nat) : ex := (EOpp (ESum (0 + z) 0 (EMul (ET 2 [(0 + z); k; a; c]) (ET 3 [a; c; (0 + z); k])))).
Definition z_crcc_d3abb_o (z c i k : nat) : ex := (ESum (0 + z) 1 (EMul (ET 2 [i; k; (0 + z); c]) (ET 3 [(0 + z); c; i; k]))).
Definition z_crcc_d3bbb_v (z a i b : nat) : ex := (EOpp (ESum (0 + z) 2 (EMul (ET 4 [i; (0 + z); a; b]) (ET 5 [a; b; i; (0 + z)])))).
Definition z_crcc_d3bbb_o (z a i j : nat) : ex := (ESum (0 + z) 3 (EMul (ET 4 [i; j; a; (0 + z)]) (ET 5 [a; (0 + z); i; j]))).
Definition z_crcc_I2A_vvov (z a b i e : nat) : ex := (EAdd (ET 6 [a; b; i; e]) (ESum (0 + z) 0 (EMul (ET 7 [(0 + z); e]) (ET 1 [a; b; i; (0 + z)])))).
Definition z_crcc_X3aaa (z a b c i j k : nat) : ex := (EAdd (EAdd (EAdd (EAdd (EAdd (EScale (-1) 2 (ESum (0 + z) 0 (EMul (ET 8 [a; (0 + z); i; j]) (ET 1 [b; c; (0 + z); k])))) (EScale (1) 2 (ESum (0 + z) 0 (EMul (ET 8 [a; (0 + z); k; j]) (ET 1 [b; c; (0 + z); i]))))) (EScale (1) 2 (ESum (0 + z) 0 (EMul (ET 8 [a; (0 + z); i; k]) (ET 1 [b; c; (0 + z); j]))))) (EScale (1) 2 (ESum (0 + z) 1 (EMul (z_crcc_I2A_vvov (1 + z) a b i (0 + z)) (ET 1 [(0 + z); c; j; k]))))) (EScale (-1) 2 (ESum (0 + z) 1 (EMul (z_crcc_I2A_vvov (1 + z) a b j (0 + z)) (ET 1 [(0 + z); c; i; k]))))) (EScale (-1) 2 (ESum (0 + z) 1 (EMul (z_crcc_I2A_vvov (1 + z) a b k (0 + z)) (ET 1 [(0 + z); c; j; i]))))).
Definition z_crcc_L3aaa (z a b c i j k : nat) : ex := (EAdd (EAdd (EAdd (EAdd (EAdd (EScale (1) 2 (ESum (0 + z) 1 (EMul (ET 9 [(0 + z); i; b; a]) (ET 10 [(0 + z); c; j; k])))) (EScale (-1) 2 (ESum (0 + z) 1 (EMul (ET 9 [(0 + z); j; b; a]) (ET 10 [(0 + z); c; i; k]))))) (EScale (-1) 2 (ESum (0 + z) 1 (EMul (ET 9 [(0 + z); k; b; a]) (ET 10 [(0 + z); c; j; i]))))) (EScale (-1) 2 (ESum (0 + z) 0 (EMul (ET 11 [j; i; (0 + z); a]) (ET 10 [b; c; (0 + z); k]))))) (EScale (1) 2 (ESum (0 + z) 0 (EMul (ET 11 [k; i; (0 + z); a]) (ET 10 [b; c; (0 + z); j]))))) (EScale (1) 2 (ESum (0 + z) 0 (EMul (ET 11 [j; k; (0 + z); a]) (ET 10 [b; c; (0 + z); i]))))).
Definition z_crcc_M_aaa (z a b c i j k : nat) : ex := (ESub (ESub (ESub (EAdd (EAdd (z_crcc_X3aaa (0 + z) a b c i j k) (z_crcc_X3aaa (0 + z) b c a i j k)) (z_crcc_X3aaa (0 + z) c a b i j k)) (z_crcc_X3aaa (0 + z) a c b i j k)) (z_crcc_X3aaa (0 + z) b a c i j k)) (z_crcc_X3aaa (0 + z) c b a i j k)).
Definition z_crcc_L2_aaa (z a b c i j k : nat) : ex := (ESub (ESub (ESub (EAdd (EAdd (z_crcc_L3aaa (0 + z) a b c i j k) (z_crcc_L3aaa (0 + z) b c a i j k)) (z_crcc_L3aaa (0 + z) c a b i j k)) (z_crcc_L3aaa (0 + z) a c b i j k)) (z_crcc_L3aaa (0 + z) b a c i j k)) (z_crcc_L3aaa (0 + z) c b a i j k)).
Definition z_crcc_L1_aaa (z a b c i j k : nat) : ex := (EAdd (EAdd (EAdd (EAdd (ESub (ESub (ESub (ESub (EAdd (EAdd (EAdd (EAdd (EAdd (ESub (ESub (ESub (ESub (EMul (ET 12 [c; k]) (ET 0 [i; j; a; b])) (EMul (ET 12 [a; k]) (ET 0 [i; j; c; b]))) (EMul (ET 12 [b; k]) (ET 0 [i; j; a; c]))) (EMul (ET 12 [c; i]) (ET 0 [k; j; a; b]))) (EMul (ET 12 [c; j]) (ET 0 [i; k; a; b]))) (EMul (ET 12 [a; i]) (ET 0 [k; j; c; b]))) (EMul (ET 12 [b; i]) (ET 0 [k; j; a; c]))) (EMul (ET 12 [a; j]) (ET 0 [i; k; c; b]))) (EMul (ET 12 [b; j]) (ET 0 [i; k; a; c]))) (EMul (ET 7 [k; c]) (ET 10 [a; b; i; j]))) (EMul (ET 7 [k; a]) (ET 10 [c; b; i; j]))) (EMul (ET 7 [k; b]) (ET 10 [a; c; i; j]))) (EMul (ET 7 [i; c]) (ET 10 [a; b; k; j]))) (EMul (ET 7 [j; c]) (ET 10 [a; b; i; k]))) (EMul (ET 7 [i; a]) (ET 10 [c; b; k; j]))) (EMul (ET 7 [i; b]) (ET 10 [a; c; k; j]))) (EMul (ET 7 [j; a]) (ET 10 [c; b; i; k]))) (EMul (ET 7 [j; b]) (ET 10 [a; c; i; k]))).
Definition z_crcc_L_aaa (z a b c i j k : nat) : ex := (EAdd (z_crcc_L2_aaa (0 + z) a b c i j k) (z_crcc_L1_aaa (0 + z) a b c i j k)).
Definition z_crcc_I2B_ovoo (z m c j k : nat) : ex := (ESub (ET 13 [m; c; j; k]) (ESum (0 + z) 1 (EMul (ET 7 [m; (0 + z)]) (ET 3 [(0 + z); c; j; k])))).
Definition z_crcc_I2B_vooo (z a m i k : nat) : ex := (ESub (ET 14 [a; m; i; k]) (ESum (0 + z) 3 (EMul (ET 15 [m; (0 + z)]) (ET 3 [a; (0 + z); i; k])))).
Definition z_crcc_I2A_vooo (z a m i j : nat) : ex := (ESub (ET 8 [a; m; i; j]) (ESum (0 + z) 1 (EMul (ET 7 [m; (0 + z)]) (ET 1 [a; (0 + z); i; j])))).
Definition z_crcc_X3aab (z a b c i j k : nat) : ex := (EAdd (EAdd (EAdd (EAdd (EAdd (EAdd (EAdd (EAdd (EAdd (EScale (1) 1 (ESum (0 + z) 1 (EMul (ET 1 [a; (0 + z); i; j]) (ET 16 [b; c; (0 + z); k])))) (EScale (1) 2 (ESum (0 + z) 0 (EMul (ET 1 [a; b; (0 + z); i]) (z_crcc_I2B_ovoo (1 + z) (0 + z) c j k))))) (EScale (-1) 2 (ESum (0 + z) 0 (EMul (ET 1 [a; b; (0 + z); j]) (z_crcc_I2B_ovoo (1 + z) (0 + z) c i k))))) (EScale (1) 1 (ESum (0 + z) 3 (EMul (ET 3 [a; (0 + z); i; k]) (ET 17 [b; c; j; (0 + z)]))))) (EScale (-1) 1 (ESum (0 + z) 3 (EMul (ET 3 [a; (0 + z); j; k]) (ET 17 [b; c; i; (0 + z)]))))) (EScale (-1) 1 (ESum (0 + z) 2 (EMul (z_crcc_I2B_vooo (1 + z) a (0 + z) i k) (ET 3 [b; c; j; (0 + z)]))))) (EScale (1) 1 (ESum (0 + z) 2 (EMul (z_crcc_I2B_vooo (1 + z) a (0 + z) j k) (ET 3 [b; c; i; (0 + z)]))))) (EScale (1) 2 (ESum (0 + z) 1 (EMul (ET 6 [a; b; i; (0 + z)]) (ET 3 [(0 + z); c; j; k]))))) (EScale (-1) 2 (ESum (0 + z) 1 (EMul (ET 6 [a; b; j; (0 + z)]) (ET 3 [(0 + z); c; i; k]))))) (EScale (-1) 1 (ESum (0 + z) 0 (EMul (z_crcc_I2A_vooo (1 + z) a (0 + z) i j) (ET 3 [b; c; (0 + z); k]))))).
Definition z_crcc_L3aab (z a b c i j k : nat) : ex := (EAdd (EAdd (EAdd (EAdd (EAdd (EAdd (EAdd (EAdd (EAdd (EScale (1) 1 (ESum (0 + z) 1 (EMul (ET 10 [a; (0 + z); i; j]) (ET 18 [(0 + z); k; b; c])))) (EScale (1) 2 (ESum (0 + z) 1 (EMul (ET 9 [(0 + z); i; b; a]) (ET 19 [(0 + z); c; j; k]))))) (EScale (-1) 2 (ESum (0 + z) 1 (EMul (ET 9 [(0 + z); j; b; a]) (ET 19 [(0 + z); c; i; k]))))) (EScale (1) 1 (ESum (0 + z) 3 (EMul (ET 19 [a; (0 + z); i; k]) (ET 20 [j; (0 + z); b; c]))))) (EScale (-1) 1 (ESum (0 + z) 3 (EMul (ET 19 [a; (0 + z); j; k]) (ET 20 [i; (0 + z); b; c]))))) (EScale (1) 2 (ESum (0 + z) 0 (EMul (ET 10 [a; b; (0 + z); i]) (ET 21 [j; k; (0 + z); c]))))) (EScale (-1) 2 (ESum (0 + z) 0 (EMul (ET 10 [a; b; (0 + z); j]) (ET 21 [i; k; (0 + z); c]))))) (EScale (-1) 1 (ESum (0 + z) 0 (EMul (ET 11 [j; i; (0 + z); a]) (ET 19 [b; c; (0 + z); k]))))) (EScale (-1) 1 (ESum (0 + z) 2 (EMul (ET 22 [i; k; a; (0 + z)]) (ET 19 [b; c; j; (0 + z)]))))) (EScale (1) 1 (ESum (0 + z) 2 (EMul (ET 22 [j; k; a; (0 + z)]) (ET 19 [b; c; i; (0 + z)]))))).
Definition z_crcc_M_aab (z a b c i j k : nat) : ex := (ESub (z_crcc_X3aab (0 + z) a b c i j k) (z_crcc_X3aab (0 + z) b a c i j k)).
Definition z_crcc_L2_aab (z a b c i j k : nat) : ex := (ESub (z_crcc_L3aab (0 + z) a b c i j k) (z_crcc_L3aab (0 + z) b a c i j k)).
Definition z_crcc_L1_aab (z a b c i j k : nat) : ex := (EAdd (EAdd (ESub (ESub (EAdd (EAdd (EAdd (ESub (ESub (EMul (ET 12 [a; i]) (ET 2 [j; k; b; c])) (EMul (ET 12 [a; j]) (ET 2 [i; k; b; c]))) (EMul (ET 12 [b; i]) (ET 2 [j; k; a; c]))) (EMul (ET 12 [b; j]) (ET 2 [i; k; a; c]))) (EMul (ET 23 [c; k]) (ET 0 [i; j; a; b]))) (EMul (ET 19 [b; c; j; k]) (ET 7 [i; a]))) (EMul (ET 19 [b; c; i; k]) (ET 7 [j; a]))) (EMul (ET 19 [a; c; j; k]) (ET 7 [i; b]))) (EMul (ET 19 [a; c; i; k]) (ET 7 [j; b]))) (EMul (ET 10 [a; b; i; j]) (ET 15 [k; c]))).
Definition z_crcc_L_aab (z a b c i j k : nat) : ex := (EAdd (z_crcc_L2_aab (0 + z) a b c i j k) (z_crcc_L1_aab (0 + z) a b c i j k)).
Definition z_crcc_I2B_vooo_1 (z a m i j : nat) : ex := (ESub (ET 14 [a; m; i; j]) (ESum (0 + z) 3 (EMul (ET 15 [m; (0 + z)]) (ET 3 [a; (0 + z); i; j])))).
Definition z_crcc_I2C_vooo (z c m k j : nat) : ex := (ESub (ET 24 [c; m; k; j]) (ESum (0 + z) 3 (EMul (ET 15 [m; (0 + z)]) (ET 5 [c; (0 + z); k; j])))).
Definition z_crcc_I2B_ovoo_1 (z m b i j : nat) : ex := (ESub (ET 13 [m; b; i; j]) (ESum (0 + z) 1 (EMul (ET 7 [m; (0 + z)]) (ET 3 [(0 + z); b; i; j])))).
Definition z_crcc_X3abb (z a b c i j k : nat) : ex := (EAdd (EAdd (EAdd (EAdd (EAdd (EAdd (EAdd (EAdd (EAdd (EScale (1) 1 (ESum (0 + z) 3 (EMul (ET 17 [a; b; i; (0 + z)]) (ET 5 [(0 + z); c; j; k])))) (EScale (-1) 2 (ESum (0 + z) 2 (EMul (z_crcc_I2B_vooo_1 (1 + z) a (0 + z) i j) (ET 5 [b; c; (0 + z); k]))))) (EScale (1) 2 (ESum (0 + z) 2 (EMul (z_crcc_I2B_vooo_1 (1 + z) a (0 + z) i k) (ET 5 [b; c; (0 + z); j]))))) (EScale (1) 2 (ESum (0 + z) 3 (EMul (ET 3 [a; (0 + z); i; j]) (ET 25 [c; b; k; (0 + z)]))))) (EScale (-1) 2 (ESum (0 + z) 3 (EMul (ET 3 [a; (0 + z); i; k]) (ET 25 [c; b; j; (0 + z)]))))) (EScale (-1) 1 (ESum (0 + z) 2 (EMul (ET 3 [a; b; i; (0 + z)]) (z_crcc_I2C_vooo (1 + z) c (0 + z) k j))))) (EScale (1) 1 (ESum (0 + z) 1 (EMul (ET 16 [a; b; (0 + z); j]) (ET 3 [(0 + z); c; i; k]))))) (EScale (-1) 1 (ESum (0 + z) 1 (EMul (ET 16 [a; b; (0 + z); k]) (ET 3 [(0 + z); c; i; j]))))) (EScale (-1) 1 (ESum (0 + z) 0 (EMul (ET 3 [a; b; (0 + z); j]) (z_crcc_I2B_ovoo_1 (1 + z) (0 + z) c i k))))) (EScale (1) 1 (ESum (0 + z) 0 (EMul (ET 3 [a; b; (0 + z); k]) (z_crcc_I2B_ovoo_1 (1 + z) (0 + z) c i j))))).
Definition z_crcc_L3abb (z a b c i j k : nat) : ex := (EAdd (EAdd (EAdd (EAdd (EAdd (EAdd (EAdd (EAdd (EAdd (EScale (1) 1 (ESum (0 + z) 3 (EMul (ET 20 [i; (0 + z); a; b]) (ET 26 [(0 + z); c; j; k])))) (EScale (1) 2 (ESum (0 + z) 3 (EMul (ET 19 [a; (0 + z); i; j]) (ET 27 [(0 + z); k; b; c]))))) (EScale (-1) 2 (ESum (0 + z) 3 (EMul (ET 19 [a; (0 + z); i; k]) (ET 27 [(0 + z); j; b; c]))))) (EScale (1) 1 (ESum (0 + z) 1 (EMul (ET 18 [(0 + z); j; a; b]) (ET 19 [(0 + z); c; i; k]))))) (EScale (-1) 1 (ESum (0 + z) 1 (EMul (ET 18 [(0 + z); k; a; b]) (ET 19 [(0 + z); c; i; j]))))) (EScale (-1) 2 (ESum (0 + z) 2 (EMul (ET 22 [i; j; a; (0 + z)]) (ET 26 [b; c; (0 + z); k]))))) (EScale (1) 2 (ESum (0 + z) 2 (EMul (ET 22 [i; k; a; (0 + z)]) (ET 26 [b; c; (0 + z); j]))))) (EScale (-1) 1 (ESum (0 + z) 2 (EMul (ET 19 [a; b; i; (0 + z)]) (ET 28 [j; k; (0 + z); c]))))) (EScale (-1) 1 (ESum (0 + z) 0 (EMul (ET 19 [a; b; (0 + z); j]) (ET 21 [i; k; (0 + z); c]))))) (EScale (1) 1 (ESum (0 + z) 0 (EMul (ET 19 [a; b; (0 + z); k]) (ET 21 [i; j; (0 + z); c]))))).
Definition z_crcc_M_abb (z a b c i j k : nat) : ex := (ESub (z_crcc_X3abb (0 + z) a b c i j k) (z_crcc_X3abb (0 + z) a c b i j k)).
Definition z_crcc_L2_abb (z a b c i j k : nat) : ex := (ESub (z_crcc_L3abb (0 + z) a b c i j k) (z_crcc_L3abb (0 + z) a c b i j k)).
Definition z_crcc_L1_abb (z a b c i j k : nat) : ex := (EAdd (EAdd (ESub (ESub (EAdd (EAdd (EAdd (ESub (ESub (EMul (ET 23 [c; k]) (ET 2 [i; j; a; b])) (EMul (ET 23 [b; k]) (ET 2 [i; j; a; c]))) (EMul (ET 23 [c; j]) (ET 2 [i; k; a; b]))) (EMul (ET 23 [b; j]) (ET 2 [i; k; a; c]))) (EMul (ET 12 [a; i]) (ET 4 [j; k; b; c]))) (EMul (ET 15 [k; c]) (ET 19 [a; b; i; j]))) (EMul (ET 15 [k; b]) (ET 19 [a; c; i; j]))) (EMul (ET 15 [j; c]) (ET 19 [a; b; i; k]))) (EMul (ET 15 [j; b]) (ET 19 [a; c; i; k]))) (EMul (ET 7 [i; a]) (ET 26 [b; c; j; k]))).
Definition z_crcc_L_abb (z a b c i j k : nat) : ex := (EAdd (z_crcc_L2_abb (0 + z) a b c i j k) (z_crcc_L1_abb (0 + z) a b c i j k)).
Definition z_crcc_I2C_vvov (z a b i e : nat) : ex := (EAdd (ET 25 [a; b; i; e]) (ESum (0 + z) 2 (EMul (ET 15 [(0 + z); e]) (ET 5 [a; b; i; (0 + z)])))).
Definition z_crcc_X3bbb (z a b c i j k : nat) : ex := (EAdd (EAdd (EAdd (EAdd (EAdd (EScale (-1) 2 (ESum (0 + z) 2 (EMul (ET 24 [a; (0 + z); i; j]) (ET 5 [b; c; (0 + z); k])))) (EScale (1) 2 (ESum (0 + z) 2 (EMul (ET 24 [a; (0 + z); k; j]) (ET 5 [b; c; (0 + z); i]))))) (EScale (1) 2 (ESum (0 + z) 2 (EMul (ET 24 [a; (0 + z); i; k]) (ET 5 [b; c; (0 + z); j]))))) (EScale (1) 2 (ESum (0 + z) 3 (EMul (z_crcc_I2C_vvov (1 + z) a b i (0 + z)) (ET 5 [(0 + z); c; j; k]))))) (EScale (-1) 2 (ESum (0 + z) 3 (EMul (z_crcc_I2C_vvov (1 + z) a b j (0 + z)) (ET 5 [(0 + z); c; i; k]))))) (EScale (-1) 2 (ESum (0 + z) 3 (EMul (z_crcc_I2C_vvov (1 + z) a b k (0 + z)) (ET 5 [(0 + z); c; j; i]))))).
Definition z_crcc_L3bbb (z a b c i j k : nat) : ex := (EAdd (EAdd (EAdd (EAdd (EAdd (EScale (1) 2 (ESum (0 + z) 3 (EMul (ET 27 [(0 + z); i; b; a]) (ET 26 [(0 + z); c; j; k])))) (EScale (-1) 2 (ESum (0 + z) 3 (EMul (ET 27 [(0 + z); j; b; a]) (ET 26 [(0 + z); c; i; k]))))) (EScale (-1) 2 (ESum (0 + z) 3 (EMul (ET 27 [(0 + z); k; b; a]) (ET 26 [(0 + z); c; j; i]))))) (EScale (-1) 2 (ESum (0 + z) 2 (EMul (ET 28 [j; i; (0 + z); a]) (ET 26 [b; c; (0 + z); k]))))) (EScale (1) 2 (ESum (0 + z) 2 (EMul (ET 28 [k; i; (0 + z); a]) (ET 26 [b; c; (0 + z); j]))))) (EScale (1) 2 (ESum (0 + z) 2 (EMul (ET 28 [j; k; (0 + z); a]) (ET 26 [b; c; (0 + z); i]))))).
Definition z_crcc_M_bbb (z a b c i j k : nat) : ex := (ESub (ESub (ESub (EAdd (EAdd (z_crcc_X3bbb (0 + z) a b c i j k) (z_crcc_X3bbb (0 + z) b c a i j k)) (z_crcc_X3bbb (0 + z) c a b i j k)) (z_crcc_X3bbb (0 + z) a c b i j k)) (z_crcc_X3bbb (0 + z) b a c i j k)) (z_crcc_X3bbb (0 + z) c b a i j k)).
Definition z_crcc_L2_bbb (z a b c i j k : nat) : ex := (ESub (ESub (ESub (EAdd (EAdd (z_crcc_L3bbb (0 + z) a b c i j k) (z_crcc_L3bbb (0 + z) b c a i j k)) (z_crcc_L3bbb (0 + z) c a b i j k)) (z_crcc_L3bbb (0 + z) a c b i j k)) (z_crcc_L3bbb (0 + z) b a c i j k)) (z_crcc_L3bbb (0 + z) c b a i j k)).
Definition z_crcc_L1_bbb (z a b c i j k : nat) : ex := (EAdd (EAdd (EAdd (EAdd (ESub (ESub (ESub (ESub (EAdd (EAdd (EAdd (EAdd (EAdd (ESub (ESub (ESub (ESub (EMul (ET 23 [c; k]) (ET 4 [i; j; a; b])) (EMul (ET 23 [a; k]) (ET 4 [i; j; c; b]))) (EMul (ET 23 [b; k]) (ET 4 [i; j; a; c]))) (EMul (ET 23 [c; i]) (ET 4 [k; j; a; b]))) (EMul (ET 23 [c; j]) (ET 4 [i; k; a; b]))) (EMul (ET 23 [a; i]) (ET 4 [k; j; c; b]))) (EMul (ET 23 [b; i]) (ET 4 [k; j; a; c]))) (EMul (ET 23 [a; j]) (ET 4 [i; k; c; b]))) (EMul (ET 23 [b; j]) (ET 4 [i; k; a; c]))) (EMul (ET 15 [k; c]) (ET 26 [a; b; i; j]))) (EMul (ET 15 [k; a]) (ET 26 [c; b; i; j]))) (EMul (ET 15 [k; b]) (ET 26 [a; c; i; j]))) (EMul (ET 15 [i; c]) (ET 26 [a; b; k; j]))) (EMul (ET 15 [j; c]) (ET 26 [a; b; i; k]))) (EMul (ET 15 [i; a]) (ET 26 [c; b; k; j]))) (EMul (ET 15 [i; b]) (ET 26 [a; c; k; j]))) (EMul (ET 15 [j; a]) (ET 26 [c; b; i; k]))) (EMul (ET 15 [j; b]) (ET 26 [a; c; i; k]))).
Definition z_crcc_L_bbb (z a b c i j k : nat) : ex := (EAdd (z_crcc_L2_bbb (0 + z) a b c i j k) (z_crcc_L1_bbb (0 + z) a b c i j k)).
Definition q_M_abb : ex * ex := (z_crcc_M_abb 6 0 1 2 3 4 5, z_crcc_M_aab 6 1 2 0 4 5 3).
Definition q_M_bbb : ex * ex := (z_crcc_M_bbb 6 0 1 2 3 4 5, z_crcc_M_aaa 6 0 1 2 3 4 5).
Definition q_L_abb : ex * ex := (z_crcc_L_abb 6 0 1 2 3 4 5, z_crcc_L_aab 6 1 2 0 4 5 3).
Definition q_L_bbb : ex * ex := (z_crcc_L_bbb 6 0 1 2 3 4 5, z_crcc_L_aaa 6 0 1 2 3 4 5).
Definition q_d3bbb_v : ex * ex := (z_crcc_d3bbb_v 3 0 1 2, z_crcc_d3aaa_v 3 0 1 2).
Definition q_d3bbb_o : ex * ex := (z_crcc_d3bbb_o 3 0 1 2, z_crcc_d3aaa_o 3 0 1 2).
Definition q_d3abb_v : ex * ex := (z_crcc_d3abb_v 3 0 1 2, z_crcc_d3aab_v 3 2 1 0).
Definition q_d3abb_o : ex * ex := (z_crcc_d3abb_o 3 0 1 2, z_crcc_d3aab_o 3 0 2 1).
Definition crrhf_arrays (d : dims) (H0 H : ints) (T L : amps) := [ap4 (i_aa_oovv H);
  ap4 (x_aa T);
  ap4 (i_ab_oovv H);
  ap4 (x_ab T);
  ap4 (i_bb_oovv H);
  ap4 (x_bb T);
  ap4 (i_aa_vvov H);
  ap2 (i_a_ov H);
  ap4 (i_aa_vooo H);
  ap4 (i_aa_vovv H);
  ap4 (x_aa L);
  ap4 (i_aa_ooov H);
  ap2 (x_a L);
  ap4 (i_ab_ovoo H);
  ap4 (i_ab_vooo H);
  ap2 (i_b_ov H);
  ap4 (i_ab_vvvo H);
  ap4 (i_ab_vvov H);
  ap4 (i_ab_vovv H);
  ap4 (x_ab L);
  ap4 (i_ab_ovvv H);
  ap4 (i_ab_ooov H);
  ap4 (i_ab_oovo H);
  ap2 (x_b L);
  ap4 (i_bb_vooo H);
  ap4 (i_bb_vvov H);
  ap4 (x_bb L);
  ap4 (i_bb_vovv H);
  ap4 (i_bb_ooov H);
  ap4 (i_aa_vvvo H);
  ap4 (i_aa_ovoo H);
  ap4 (i_aa_ovvv H);
  ap4 (i_aa_oovo H);
  ap4 (i_bb_ovoo H);
  ap4 (i_bb_vvvo H);
  ap4 (i_bb_ovvv H);
  ap4 (i_bb_oovo H)].
Definition crrhf_gens : list (nat * (nat * list nat * bool)) := [(0, (0, [1; 0; 2; 3], false));
  (0, (0, [0; 1; 3; 2], false));
  (1, (1, [1; 0; 2; 3], false));
  (1, (1, [0; 1; 3; 2], false));
  (2, (2, [1; 0; 3; 2], true));
  (3, (3, [1; 0; 3; 2], true));
  (4, (4, [1; 0; 2; 3], false));
  (4, (4, [0; 1; 3; 2], false));
  (4, (0, [0; 1; 2; 3], true));
  (5, (5, [1; 0; 2; 3], false));
  (5, (5, [0; 1; 3; 2], false));
  (5, (1, [0; 1; 2; 3], true));
  (6, (6, [1; 0; 2; 3], false));
  (6, (29, [0; 1; 3; 2], false));
  (8, (30, [1; 0; 2; 3], false));
  (8, (8, [0; 1; 3; 2], false));
  (9, (31, [1; 0; 2; 3], false));
  (9, (9, [0; 1; 3; 2], false));
  (10, (10, [1; 0; 2; 3], false));
  (10, (10, [0; 1; 3; 2], false));
  (11, (11, [1; 0; 2; 3], false));
  (11, (32, [0; 1; 3; 2], false));
  (13, (14, [1; 0; 3; 2], true));
  (14, (13, [1; 0; 3; 2], true));
  (15, (7, [0; 1], true));
  (16, (17, [1; 0; 3; 2], true));
  (17, (16, [1; 0; 3; 2], true));
  (18, (20, [1; 0; 3; 2], true));
  (19, (19, [1; 0; 3; 2], true));
  (20, (18, [1; 0; 3; 2], true));
  (21, (22, [1; 0; 3; 2], true));
  (22, (21, [1; 0; 3; 2], true));
  (23, (12, [0; 1], true));
  (24, (33, [1; 0; 2; 3], false));
  (24, (24, [0; 1; 3; 2], false));
  (24, (8, [0; 1; 2; 3], true));
  (25, (25, [1; 0; 2; 3], false));
  (25, (34, [0; 1; 3; 2], false));
  (25, (6, [0; 1; 2; 3], true));
  (26, (26, [1; 0; 2; 3], false));
  (26, (26, [0; 1; 3; 2], false));
  (26, (10, [0; 1; 2; 3], true));
  (27, (35, [1; 0; 2; 3], false));
  (27, (27, [0; 1; 3; 2], false));
  (27, (9, [0; 1; 2; 3], true));
  (28, (28, [1; 0; 2; 3], false));
  (28, (36, [0; 1; 3; 2], false));
  (28, (11, [0; 1; 2; 3], true));
  (29, (29, [1; 0; 2; 3], false));
  (29, (6, [0; 1; 3; 2], false));
  (30, (8, [1; 0; 2; 3], false));
  (30, (30, [0; 1; 3; 2], false));
  (31, (9, [1; 0; 2; 3], false));
  (31, (31, [0; 1; 3; 2], false));
  (32, (32, [1; 0; 2; 3], false));
  (32, (11, [0; 1; 3; 2], false));
  (33, (24, [1; 0; 2; 3], false));
  (33, (33, [0; 1; 3; 2], false));
  (33, (30, [0; 1; 2; 3], true));
  (34, (34, [1; 0; 2; 3], false));
  (34, (25, [0; 1; 3; 2], false));
  (34, (29, [0; 1; 2; 3], true));
  (35, (27, [1; 0; 2; 3], false));
  (35, (35, [0; 1; 3; 2], false));
  (35, (31, [0; 1; 2; 3], true));
  (36, (36, [1; 0; 2; 3], false));
  (36, (28, [0; 1; 3; 2], false));
  (36, (32, [0; 1; 2; 3], true))].
Definition crrhf_tab := Eval vm_compute in symtab crrhf_gens 37.
Local Open Scope R_scope.
Section C.
Variables (d : dims) (H0 H : ints) (T L : amps).
Hypothesis En : noa d = nob d.
Hypothesis Em : nua d = nub d.
Hypothesis HH : antisym_ints H.
Hypothesis CH : closed_ints H.
Hypothesis C0 : closed_ints H0.
Hypothesis HT : antisym_amps T.
Hypothesis HL : antisym_amps L.
Hypothesis CT : closed_amps T.
Hypothesis CL : closed_amps L.
Lemma crrhf_syms : Forall (fun g => okalt (tenv (crrhf_arrays d H0 H T L)) (fst g) (snd g)) crrhf_gens.
Proof. clear C0. sym_all. Qed.
Lemma crrhf_same e1 e2 v : same_tab crrhf_tab dfold [0; 1]%nat e1 e2 = true -> den (denv [noa d; nua d; nob d; nub d]) (tenv (crrhf_arrays d H0 H T L)) e1 v = den (denv [noa d; nua d; nob d; nub d]) (tenv (crrhf_arrays d H0 H T L)) e2 v.
Proof.
  intros E. apply (same_tab_sound _ _ crrhf_gens 37 crrhf_tab dfold [0; 1]%nat); [vm_compute; reflexivity|now apply dfold_ok|exact crrhf_syms|exact E].
Qed.
Lemma fl_M_abb a b c i j k : crcc_M_abb d H0 H T L a b c i j k = crcc_M_aab d H0 H T L b c a j k i.
Proof. apply (crrhf_same (fst q_M_abb) (snd q_M_abb) (venv [a; b; c; i; j; k])). vm_compute. reflexivity. Qed.
Lemma fl_M_bbb a b c i j k : crcc_M_bbb d H0 H T L a b c i j k = crcc_M_aaa d H0 H T L a b c i j k.
Proof. apply (crrhf_same (fst q_M_bbb) (snd q_M_bbb) (venv [a; b; c; i; j; k])). vm_compute. reflexivity. Qed.
Lemma fl_L_abb a b c i j k : crcc_L_abb d H0 H T L a b c i j k = crcc_L_aab d H0 H T L b c a j k i.
Proof. apply (crrhf_same (fst q_L_abb) (snd q_L_abb) (venv [a; b; c; i; j; k])). vm_compute. reflexivity. Qed.
Lemma fl_L_bbb a b c i j k : crcc_L_bbb d H0 H T L a b c i j k = crcc_L_aaa d H0 H T L a b c i j k.
Proof. apply (crrhf_same (fst q_L_bbb) (snd q_L_bbb) (venv [a; b; c; i; j; k])). vm_compute. reflexivity. Qed.
Lemma fl_d3bbb_v p q r : crcc_d3bbb_v d H0 H T L p q r = crcc_d3aaa_v d H0 H T L p q r.
Proof. apply (crrhf_same (fst q_d3bbb_v) (snd q_d3bbb_v) (venv [p; q; r])). vm_compute. reflexivity. Qed.
Lemma fl_d3bbb_o p q r : crcc_d3bbb_o d H0 H T L p q r = crcc_d3aaa_o d H0 H T L p q r.
Proof. apply (crrhf_same (fst q_d3bbb_o) (snd q_d3bbb_o) (venv [p; q; r])). vm_compute. reflexivity. Qed.
Lemma fl_d3abb_v p q r : crcc_d3abb_v d H0 H T L p q r = crcc_d3aab_v d H0 H T L r q p.
Proof. apply (crrhf_same (fst q_d3abb_v) (snd q_d3abb_v) (venv [p; q; r])). vm_compute. reflexivity. Qed.
Lemma fl_d3abb_o p q r : crcc_d3abb_o d H0 H T L p q r = crcc_d3aab_o d H0 H T L p r q.
Proof. apply (crrhf_same (fst q_d3abb_o) (snd q_d3abb_o) (venv [p; q; r])). vm_compute. reflexivity. Qed.
Lemma fl_hbb a b : crcc_h_bb_vvvv H a b = crcc_h_aa_vvvv H a b. Proof. unfold crcc_h_bb_vvvv, crcc_h_aa_vvvv. now rewrite !(ci_aa_vvvv H CH). Qed.
Lemma fl_hab a b : crcc_h_ab_vvvv H a b = crcc_h_ab_vvvv H b a. Proof. unfold crcc_h_ab_vvvv. apply (ci_ab_vvvv H CH). Qed.
Lemma fl_DA_bbb a b c i j k : crcc_DA_bbb d H0 H T L a b c i j k = crcc_DA_aaa d H0 H T L a b c i j k.
Proof. unfold crcc_DA_bbb, crcc_DA_aaa. now rewrite !(ci_a_oo H0 C0), !(ci_a_vv H0 C0). Qed.
Lemma fl_DA_abb a b c i j k : crcc_DA_abb d H0 H T L a b c i j k = crcc_DA_aab d H0 H T L b c a j k i.
Proof. unfold crcc_DA_abb, crcc_DA_aab. rewrite !(ci_a_oo H0 C0), !(ci_a_vv H0 C0). ring. Qed.
Lemma fl_DB_bbb a b c i j k : crcc_DB_bbb d H0 H T L a b c i j k = crcc_DB_aaa d H0 H T L a b c i j k.
Proof. unfold crcc_DB_bbb, crcc_DB_aaa. now rewrite !(ci_a_oo H CH), !(ci_a_vv H CH). Qed.
Lemma fl_DB_abb a b c i j k : crcc_DB_abb d H0 H T L a b c i j k = crcc_DB_aab d H0 H T L b c a j k i.
Proof. unfold crcc_DB_abb, crcc_DB_aab. rewrite !(ci_a_oo H CH), !(ci_a_vv H CH). ring. Qed.
Lemma fl_DC_bbb a b c i j k : crcc_DC_bbb d H0 H T L a b c i j k = crcc_DC_aaa d H0 H T L a b c i j k.
Proof. unfold crcc_DC_bbb, crcc_DC_aaa. now rewrite fl_DB_bbb, !(ci_aa_voov H CH), !(ci_aa_oooo H CH), !fl_hbb. Qed.
Lemma fl_DC_abb a b c i j k : crcc_DC_abb d H0 H T L a b c i j k = crcc_DC_aab d H0 H T L b c a j k i.
Proof.
  unfold crcc_DC_abb, crcc_DC_aab. rewrite fl_DB_abb, !(ci_aa_voov H CH), !(ci_aa_oooo H CH), !fl_hbb.
  rewrite !(ci_ab_ovov H CH). rewrite (ci_ab_oooo H CH j i j i), (ci_ab_oooo H CH k i k i), (fl_hab b a), (fl_hab c a). ring.
Qed.
Lemma fl_DD_bbb a b c i j k : crcc_DD_bbb d H0 H T L a b c i j k = crcc_DD_aaa d H0 H T L a b c i j k.
Proof. unfold crcc_DD_bbb, crcc_DD_aaa. now rewrite fl_DC_bbb, !fl_d3bbb_o, !fl_d3bbb_v. Qed.
Lemma fl_DD_abb a b c i j k : crcc_DD_abb d H0 H T L a b c i j k = crcc_DD_aab d H0 H T L b c a j k i.
Proof. unfold crcc_DD_abb, crcc_DD_aab. rewrite fl_DC_abb, !fl_d3bbb_o, !fl_d3bbb_v, !fl_d3abb_o, !fl_d3abb_v. ring. Qed.
End C.
