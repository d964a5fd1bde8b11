(** Model of the state diagnostics of ccpy/energy/cc_energy.py: reduced excitation levels (73-112) and left-right overlaps (114-186).
    Exact reals; a division by zero yields nan in numpy and is excluded by hypothesis in the theorems. *)
From Coq Require Import Reals Arith List.
From Verif Require Import RSum IntegralsModel TensorObjs.
Import ListNotations.
Open Scope R_scope.

(** Electron-attached and ionised amplitudes (FockOperator, operators.py 182-280): EA axes (a), (a,b,j), (a,b,c,j,k); IP axes (i), (i,b,j), (i,b,c,j,k) *)
Record fock := mkFock { q_a : mat1; q_aa : mat3; q_ab : mat3; q_aaa : mat5; q_aab : mat5; q_abb : mat5 }.

(** get_rel, lines 77-88 *)
Definition rel_1 (d : dims) (Y : amps) : R :=
  sumn (nua d) (fun a => sumn (noa d) (fun i => x_a Y a i * x_a Y a i)) + sumn (nub d) (fun a => sumn (nob d) (fun i => x_b Y a i * x_b Y a i)).
Definition rel_2 (d : dims) (Y : amps) : R :=
  1 / 4 * sumn (nua d) (fun a => sumn (nua d) (fun b => sumn (noa d) (fun i => sumn (noa d) (fun j => x_aa Y a b i j * x_aa Y a b i j))))
  + sumn (nua d) (fun a => sumn (nub d) (fun b => sumn (noa d) (fun i => sumn (nob d) (fun j => x_ab Y a b i j * x_ab Y a b i j))))
  + 1 / 4 * sumn (nub d) (fun a => sumn (nub d) (fun b => sumn (nob d) (fun i => sumn (nob d) (fun j => x_bb Y a b i j * x_bb Y a b i j)))).
Definition get_rel (d : dims) (Y : amps) (r0 : R) : R := (rel_1 d Y + 2 * rel_2 d Y) / (r0 ^ 2 + rel_1 d Y + rel_2 d Y).
(** get_rel_ea, lines 92-100 *)
Definition rel_ea_1 (d : dims) (Y : fock) : R := sumn (nua d) (fun a => q_a Y a * q_a Y a).
Definition rel_ea_2 (d : dims) (Y : fock) : R :=
  1 / 2 * sumn (nua d) (fun a => sumn (nua d) (fun b => sumn (noa d) (fun j => q_aa Y a b j * q_aa Y a b j)))
  + sumn (nua d) (fun a => sumn (nub d) (fun b => sumn (nob d) (fun j => q_ab Y a b j * q_ab Y a b j))).
Definition get_rel_ea (d : dims) (Y : fock) : R := (rel_ea_1 d Y + 2 * rel_ea_2 d Y) / (rel_ea_1 d Y + rel_ea_2 d Y).
(** get_rel_ip, lines 104-112 *)
Definition rel_ip_1 (d : dims) (Y : fock) : R := sumn (noa d) (fun i => q_a Y i * q_a Y i).
Definition rel_ip_2 (d : dims) (Y : fock) : R :=
  1 / 2 * sumn (noa d) (fun i => sumn (nua d) (fun b => sumn (noa d) (fun j => q_aa Y i b j * q_aa Y i b j)))
  + sumn (noa d) (fun i => sumn (nub d) (fun b => sumn (nob d) (fun j => q_ab Y i b j * q_ab Y i b j))).
Definition get_rel_ip (d : dims) (Y : fock) : R := (rel_ip_1 d Y + 2 * rel_ip_2 d Y) / (rel_ip_1 d Y + rel_ip_2 d Y).

(** get_LR, lines 120-124 *)
Definition lr_sd (d : dims) (Y L : amps) : R :=
  sumn (nua d) (fun e => sumn (noa d) (fun m => x_a Y e m * x_a L e m)) + sumn (nub d) (fun e => sumn (nob d) (fun m => x_b Y e m * x_b L e m))
  + 1 / 4 * sumn (nua d) (fun e => sumn (nua d) (fun f => sumn (noa d) (fun m => sumn (noa d) (fun n => x_aa Y e f m n * x_aa L e f m n))))
  + sumn (nua d) (fun e => sumn (nub d) (fun f => sumn (noa d) (fun m => sumn (nob d) (fun n => x_ab Y e f m n * x_ab L e f m n))))
  + 1 / 4 * sumn (nub d) (fun e => sumn (nub d) (fun f => sumn (nob d) (fun m => sumn (nob d) (fun n => x_bb Y e f m n * x_bb L e f m n)))).
(** np.einsum("efgmno,efgmno->", X, Y) *)
Definition full6 (n1 n2 n3 m1 m2 m3 : nat) (X Y : mat6) : R :=
  sumn n1 (fun e => sumn n2 (fun f => sumn n3 (fun g => sumn m1 (fun m => sumn m2 (fun n => sumn m3 (fun o => X e f g m n o * Y e f g m n o)))))).
Definition full5 (n1 n2 n3 m1 m2 : nat) (X Y : mat5) : R :=
  sumn n1 (fun e => sumn n2 (fun f => sumn n3 (fun g => sumn m1 (fun m => sumn m2 (fun n => X e f g m n * Y e f g m n))))).
(** get_LR with dense triples, lines 126-131 *)
Definition get_LR_dense (d : dims) (Y L : amps) : R :=
  lr_sd d Y L + 1 / 36 * full6 (nua d) (nua d) (nua d) (noa d) (noa d) (noa d) (x_aaa Y) (x_aaa L)
  + 1 / 4 * full6 (nua d) (nua d) (nub d) (noa d) (noa d) (nob d) (x_aab Y) (x_aab L)
  + 1 / 4 * full6 (nua d) (nub d) (nub d) (noa d) (nob d) (nob d) (x_abb Y) (x_abb L)
  + 1 / 36 * full6 (nub d) (nub d) (nub d) (nob d) (nob d) (nob d) (x_bbb Y) (x_bbb L).
(** np.dot of two vectors; different lengths raise *)
Fixpoint np_dot (x y : list R) : option R :=
  match x, y with
  | [], [] => Some 0
  | a :: x, b :: y => match np_dot x y with Some s => Some (a * b + s) | None => None end
  | _, _ => None
  end.
Definition oplus (x y : option R) : option R := match x, y with Some a, Some b => Some (a + b) | _, _ => None end.
Record plist := mkPlist { p_sd : amps; p_aaa : list R; p_aab : list R; p_abb : list R; p_bbb : list R }.
(** get_LR with excitation lists, lines 143-148 *)
Definition get_LR_p (d : dims) (Y L : plist) : option R :=
  oplus (Some (lr_sd d (p_sd Y) (p_sd L)))
        (oplus (oplus (oplus (np_dot (p_aaa L) (p_aaa Y)) (np_dot (p_aab L) (p_aab Y))) (np_dot (p_abb L) (p_abb Y))) (np_dot (p_bbb L) (p_bbb Y))).
(** get_LR_eaeom, lines 171-173, 175-178, 181-185 *)
Definition lr_ea_sd (d : dims) (Y L : fock) : R :=
  sumn (nua d) (fun e => q_a Y e * q_a L e) + 1 / 2 * sumn (nua d) (fun e => sumn (nua d) (fun f => sumn (noa d) (fun n => q_aa Y e f n * q_aa L e f n)))
  + sumn (nua d) (fun e => sumn (nub d) (fun f => sumn (nob d) (fun n => q_ab Y e f n * q_ab L e f n))).
Definition get_LR_ea_dense (d : dims) (Y L : fock) : R :=
  lr_ea_sd d Y L + 1 / 12 * full5 (nua d) (nua d) (nua d) (noa d) (noa d) (q_aaa Y) (q_aaa L)
  + 1 / 2 * full5 (nua d) (nua d) (nub d) (noa d) (nob d) (q_aab Y) (q_aab L)
  + 1 / 4 * full5 (nua d) (nub d) (nub d) (nob d) (nob d) (q_abb Y) (q_abb L).
Record fplist := mkFplist { f_sd : fock; f_aaa : list R; f_aab : list R; f_abb : list R }.
Definition get_LR_ea_p (d : dims) (Y L : fplist) : option R :=
  oplus (Some (lr_ea_sd d (f_sd Y) (f_sd L))) (oplus (oplus (np_dot (f_aaa L) (f_aaa Y)) (np_dot (f_aab L) (f_aab Y))) (np_dot (f_abb L) (f_abb Y))).
(** get_LR_ipeom, lines 153-155, 157-160, 163-167 *)
Definition lr_ip_sd (d : dims) (Y L : fock) : R :=
  sumn (noa d) (fun m => q_a Y m * q_a L m) + 1 / 2 * sumn (noa d) (fun m => sumn (nua d) (fun f => sumn (noa d) (fun n => q_aa Y m f n * q_aa L m f n)))
  + sumn (noa d) (fun m => sumn (nub d) (fun f => sumn (nob d) (fun n => q_ab Y m f n * q_ab L m f n))).
Definition get_LR_ip_dense (d : dims) (Y L : fock) : R :=
  lr_ip_sd d Y L + 1 / 12 * full5 (noa d) (nua d) (nua d) (noa d) (noa d) (q_aaa Y) (q_aaa L)
  + 1 / 2 * full5 (noa d) (nua d) (nub d) (noa d) (nob d) (q_aab Y) (q_aab L)
  + 1 / 4 * full5 (noa d) (nub d) (nub d) (nob d) (nob d) (q_abb Y) (q_abb L).
Definition get_LR_ip_p (d : dims) (Y L : fplist) : option R :=
  oplus (Some (lr_ip_sd d (f_sd Y) (f_sd L))) (oplus (oplus (np_dot (f_aaa L) (f_aaa Y)) (np_dot (f_aab L) (f_aab Y))) (np_dot (f_abb L) (f_abb Y))).
