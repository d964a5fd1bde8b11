(** Model of ccpy/extrapolation/goodson_extrapolation.py.  Exact reals; None is an exception (division by zero, square root of a negative
    number); with numpy scalars the same cases give inf or nan. *)
From Coq Require Import Reals String.
Open Scope R_scope.
Definition bindR (x : option R) (f : R -> option R) : option R := match x with Some v => f v | None => None end.
Definition divR (x y : R) : option R := if Req_EM_T y 0 then None else Some (x / y).
Definition sqrtR (x : R) : option R := if Rlt_dec x 0 then None else Some (sqrt x).
(** lines 19-25: d1 + 0.5 * d2**2 / d3 * (1 - sqrt(1 - 4 * d3 / d2)) *)
Definition ccq (d1 d2 d3 : R) : option R :=
  bindR (divR (/ 2 * d2 ^ 2) d3) (fun a => bindR (divR (4 * d3) d2) (fun b => bindR (sqrtR (1 - b)) (fun c => Some (d1 + a * (1 - c))))).
(** lines 27-32: d1 * (1 + d2/d1 - d3/d2) / (1 - d3/d2) *)
Definition ccr (d1 d2 d3 : R) : option R :=
  bindR (divR d2 d1) (fun a => bindR (divR d3 d2) (fun b => divR (d1 * (1 + a - b)) (1 - b))).
(** lines 34-39: d1 / (1 - d2/d1/(1 - d3/d2)) *)
Definition cccf (d1 d2 d3 : R) : option R :=
  bindR (divR d2 d1) (fun a => bindR (divR d3 d2) (fun b => bindR (divR a (1 - b)) (fun c => divR d1 (1 - c)))).
(** lines 3-17 *)
Definition goodson_extrapolation (e_ref e_ccsd e_ccsdt : R) (approximant : string) : option R :=
  let d1 := e_ref in let d2 := e_ccsd - e_ref in let d3 := e_ccsdt - e_ccsd in
  if String.eqb approximant "ccq" then ccq d1 d2 d3
  else if String.eqb approximant "ccr" then ccr d1 d2 d3
  else if String.eqb approximant "cccf" then cccf d1 d2 d3
  else Some 0.
