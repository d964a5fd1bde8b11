(** Second-quantised operators on occupation strings, for stating what a determinant excitation means. *)
From Coq Require Import List ZArith Reals.
Import ListNotations.

(** Annihilating orbital [x] in the string of occupied orbitals [l]: zero if it is empty, otherwise the sign
    (-1)^(number of occupied orbitals in front of it) and the string without it. *)
Definition annihilate (x : Z) (l : list Z) : option (R * list Z) :=
  if in_dec Z.eq_dec x l
  then Some (((-1) ^ length (filter (fun y => Z.ltb y x) l))%R, filter (fun y => negb (Z.eqb y x)) l)
  else None.
(** [annihilate_all [x1; ...; xk] l] is a_xk ... a_x1 | l >. *)
Fixpoint annihilate_all (xs : list Z) (l : list Z) : option (R * list Z) :=
  match xs with
  | [] => Some (1%R, l)
  | x :: r => match annihilate x l with
              | None => None
              | Some (s, l') => match annihilate_all r l' with
                                | None => None
                                | Some (s', l'') => Some ((s * s')%R, l'')
                                end
              end
  end.
(** < l1 | p1+ ... pk+ hk ... h1 | l2 > for real signs: both sides annihilated down to the common rest. *)
Definition element (ps hs l1 l2 : list Z) : R :=
  match annihilate_all ps l1, annihilate_all hs l2 with
  | Some (s1, r1), Some (s2, r2) => if list_eq_dec Z.eq_dec r1 r2 then (s1 * s2)%R else 0%R
  | _, _ => 0%R
  end.
