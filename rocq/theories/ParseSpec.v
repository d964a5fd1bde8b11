(** What reading a CI wave function should deliver, independently of the code that reads it. *)
From Coq Require Import List Arith ZArith Reals Sorting.Sorted.
From Verif Require Import CipsiModel CipsiSpec HilbertSpec ScatterModel ScatterSpec.
Import ListNotations.
Local Open Scope Z_scope.

(** An excitation out of the reference: alpha and beta particles and holes, each counted from 1 within the unoccupied or
    occupied orbitals of its spin and listed in increasing order. *)
Definition excitation (s : sys) (pa pb ha hb : list Z) : Prop :=
  length pa = length ha /\ length pb = length hb /\
  StronglySorted Z.lt pa /\ StronglySorted Z.lt pb /\ StronglySorted Z.lt ha /\ StronglySorted Z.lt hb /\
  within 1 (Z.of_nat (nua s)) pa /\ within 1 (Z.of_nat (nub s)) pb /\
  within 1 (Z.of_nat (noa s)) ha /\ within 1 (Z.of_nat (nob s)) hb.
(** The spin-orbitals it fills and those it empties, alpha ones first. *)
Definition filled (s : sys) (pa pb : list Z) : list Z :=
  map (fun a => alpha (a + Z.of_nat (noa s))) pa ++ map (fun a => beta (a + Z.of_nat (nob s))) pb.
Definition emptied (ha hb : list Z) : list Z := map alpha ha ++ map beta hb.

(** A wave function is a list of coefficients and determinants (spin-orbitals in increasing order, no determinant twice).
    [projection] is < excitation of the reference | wave function > divided by the coefficient of the reference:
    the amplitude that belongs to a1+ a2+ ... i2 i1 acting on the reference. *)
Definition wave_function (s : sys) (file : list (R * list Z)) : Prop :=
  (forall c D, In (c, D) file -> is_det s D /\ StronglySorted Z.lt D) /\ NoDup (map snd file).
Definition projection (s : sys) (file : list (R * list Z)) (c0 : R) (pa pb ha hb : list Z) : R :=
  fold_right Rplus 0%R (map (fun line => fst line / c0 * element (filled s pa pb) (emptied ha hb) (snd line) (HF s))%R file).

(** Where the amplitude is stored: indices counted from 0, particles before holes. *)
Definition entry (pa pb ha hb : list Z) : list nat := map (fun x => Z.to_nat (x - 1)) ((pa ++ pb) ++ ha ++ hb).
(** Equivalent axes of the array of a spin case. *)
Definition axes (na nb : nat) : list (list nat) :=
  [seq 0 na; seq na nb; seq (na + nb) na; seq (na + nb + na) nb]%nat.

(** Occupied spin-orbitals of the reference below x. *)
Definition reference_below (s : sys) (x : Z) : nat := length (filter (fun y => y <? x) (HF s)).
(** The package has at least as many alpha as beta electrons, and they fit into the orbitals. *)
Definition electrons_fit (s : sys) : Prop := (nob s <= noa s)%nat /\ (noa s <= norb s)%nat.
(** The sign that separates what is stored from the amplitude when the reference has unpaired electrons. *)
Definition misphase (s : sys) (pa pb ha hb : list Z) : R :=
  ((-1) ^ (list_sum (map (reference_below s) (filled s pa pb ++ emptied ha hb)) + length pb))%R.
(** What the stored arrays, the list of quadruples and the counts should be, up to signs [phase]. *)
Definition delivers (s : sys) (file : list (R * list Z)) (c0 : R) (phase : list Z -> list Z -> list Z -> list Z -> R)
    (arr : nat -> nat -> tensor) (rows : nat -> list (list Z)) (amps : nat -> list R) (count : nat -> nat -> nat) : Prop :=
  (forall na nb, (1 <= na + nb <= 3)%nat ->
     antisymmetric (2 * (na + nb)) (axes na nb) (arr na nb) /\
     (forall pa pb ha hb, excitation s pa pb ha hb -> length pa = na -> length pb = nb ->
        arr na nb (entry pa pb ha hb) = (phase pa pb ha hb * projection s file c0 pa pb ha hb)%R)) /\
  (forall na, (na <= 4)%nat ->
     NoDup (rows na) /\ length (amps na) = max 1 (length (rows na)) /\
     (forall row, In row (rows na) -> exists pa pb ha hb, row = (pa ++ pb) ++ ha ++ hb /\
        excitation s pa pb ha hb /\ length pa = na /\ length pb = (4 - na)%nat) /\
     (forall pa pb ha hb, excitation s pa pb ha hb -> length pa = na -> length pb = (4 - na)%nat ->
        (forall k, nth_error (rows na) k = Some ((pa ++ pb) ++ ha ++ hb) ->
           nth k (amps na) 0%R = (phase pa pb ha hb * projection s file c0 pa pb ha hb)%R) /\
        (~ In ((pa ++ pb) ++ ha ++ hb) (rows na) -> projection s file c0 pa pb ha hb = 0%R))) /\
  (forall na nb L, (1 <= na + nb <= 4)%nat -> NoDup L ->
     (forall D, In D L <-> In D (map snd file) /\ exists e, describes s na e D /\ length (fst e) = (na + nb)%nat) ->
     count na nb = length L).
