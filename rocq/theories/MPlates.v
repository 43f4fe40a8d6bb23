(** Model of the numbers of plates, channels and heat transferring areas of plate heat exchangers.

    Code modelled (all paths under /repo/multisim):
    - parts/hex_num.py 96-161, parts/heatexchanger.py 80-148 (acceptance, channels, areas per pass)
    - parts/hex_num.py 1089, parts/heatexchanger.py 937 (plates that transfer heat)
    - parts/part_modules/consumers.py 43-69 [lowex_phwrc], 645-659 [speicherladesys] (number of plates from the size
      of the building and the mean circulation flow)

    Simplifications: floats are exact reals; areas of buildings and flows are not negative ([pyround]). *)
From Coq Require Import Reals ZArith Bool.
From Verif Require Import MBC.
Open Scope Z_scope.

(** hex_num.py 121, 147: the assertions. *)
Definition admissible (passes plates : Z) : bool :=
  if passes =? 1 then Z.even plates else ((plates - 1) mod (2 * passes) =? 0).
(** Channels of supply and demand side, hex_num.py 120-152; [None]: an assertion fails. *)
Definition sides (passes plates : Z) (max_sup : bool) : option (Z * Z) :=
  if passes <? 1 then None
  else if negb (admissible passes plates) then None
  else if passes =? 1 then
    Some (if max_sup then (Z.quot plates 2, Z.quot plates 2 - 1) else (Z.quot plates 2 - 1, Z.quot plates 2))
  else Some (Z.quot (plates - 1) (passes * 2), Z.quot (plates - 1) (passes * 2)).
(** [_num_A], hex_num.py 161, and the plates that count for [A_hex_total], 1089. *)
Definition areas (passes plates : Z) : Z := Z.quot (plates - 2) passes.
Definition transferring (plates : Z) : Z := plates - 2.

(** consumers.py 51-59: the number of plates is raised until it is accepted.  The loop ends after at most
    [2 * passes] rounds. *)
Fixpoint raise (fuel : nat) (passes plates : Z) : Z :=
  match fuel with
  | O => plates
  | S k => if (plates - 1) mod (2 * passes) =? 0 then plates else raise k passes (plates + 1)
  end.
Definition adjust (passes plates : Z) : Z :=
  if passes >? 1 then raise (Z.to_nat (2 * passes)) passes plates
  else if Z.even plates then plates else plates + 1.

(** consumers.py 44, 46, 645 with the passes of 48-49 and 647. *)
Definition hot_water_wish (wfl : R) : R := (61 / 1607 * wfl)%R.
Definition circulation_wish (flow : R) : R := (8 / (11555245060523046 / 100000000000000000) * flow)%R.
Definition store_wish (wfl : R) : R := (61 / 1607 * wfl / 7)%R.
Definition hot_water_plates (wfl : R) : Z := adjust 2 (Z.of_nat (pyround (hot_water_wish wfl))).
Definition circulation_plates (flow : R) : Z := adjust 1 (Z.of_nat (pyround (circulation_wish flow))).
Definition store_plates (wfl : R) : Z := adjust 1 (Z.of_nat (pyround (store_wish wfl))).
