(** Vocabulary for the properties of mixers, splitters, pumps and plate heat exchangers. *)
From Coq Require Import Reals.
From Verif Require Import MWater MMix.
Local Open Scope R_scope.

(** [x] lies between [a] and [b], in whatever order these are. *)
Definition between (a b x : R) : Prop := Rmin a b <= x <= Rmax a b.

(** A port of a three-way part and the value at it. *)
Inductive port3 := PA | PB | PC.
Definition at3 (t : tri R) (p : port3) : R :=
  match p with PA => pA t | PB => pB t | PC => pC t end.

(** Mass balance of a three-way part. *)
Definition balanced (dm : tri R) : Prop := pA dm + pB dm + pC dm = 0.

(** All three values in a range. *)
Definition all_in (lo hi : R) (t : tri R) : Prop := forall p, lo <= at3 t p <= hi.

(** Enthalpy flow of a water flow [m] at temperature [T], as the code measures it. *)
Definition hflow (m T : R) : R := m * cp_water T * T.

(** [Tx] is the exact mixing temperature of two flows: it carries away what they bring. *)
Definition exact_mix (m1 T1 m2 T2 Tx : R) : Prop :=
  hflow m1 T1 + hflow m2 T2 = hflow (m1 + m2) Tx.

(** Heat flow of an ideal counter-flow exchanger with conductance [UA] (textbook law):
    logarithmic mean of the two end differences, or the common difference. *)
Definition lmtd_law (UA q d1 d2 : R) : Prop :=
  (d1 = d2 -> q = UA * d1) /\ (d1 <> d2 -> q = UA * ((d1 - d2) / ln (d1 / d2))).

(** Sensible dimensions of a plate heat exchanger. *)
Definition hexgeo_ok (g : hexgeo) : Prop :=
  0 < hg_A_plate g /\ 0 < hg_A_chan g /\ 0 < hg_dh g /\ 0 < hg_s g /\ 0 < hg_x g /\
  0 < hg_lam g /\ 0 < hg_numA g /\ 0 < hg_nsup g /\ 0 < hg_ndmd g /\ 0 <= hg_corr g.

(** The four connected temperatures are those of liquid water. *)
Definition hex_water (P : hexT) : Prop :=
  0 <= si P <= 100 /\ 0 <= so P <= 100 /\ 0 <= di P <= 100 /\ 0 <= do P <= 100.

(** Inlet and outlet of each side for the given flow direction. *)
Definition sup_in (dm0 : R) (P : hexT) : R := if Rle_dec 0 dm0 then si P else so P.
Definition sup_out (dm0 : R) (P : hexT) : R := if Rle_dec 0 dm0 then so P else si P.
Definition dmd_in (dm1 : R) (P : hexT) : R := if Rle_dec 0 dm1 then di P else do P.
Definition dmd_out (dm1 : R) (P : hexT) : R := if Rle_dec 0 dm1 then do P else di P.

(** Capacity flows: flow times heat capacity at the mean of the connected temperatures. *)
Definition cap_sup (P : hexT) (dm0 : R) : R := Rabs dm0 * cp_water ((si P + so P) / 2).
Definition cap_dmd (P : hexT) (dm1 : R) : R := Rabs dm1 * cp_water ((di P + do P) / 2).
(** Conductance the exchanger works with. *)
Definition hex_ua (g : hexgeo) (P : hexT) (dm0 dm1 : R) : R :=
  hex_UA g (Rabs dm0) (Rabs dm1) ((si P + so P) / 2) ((di P + do P) / 2).
(** The exponent of the effectiveness formula. *)
Definition hex_expo (g : hexgeo) (P : hexT) (dm0 dm1 : R) : R :=
  (cap_sup P dm0 / cap_dmd P dm1 - 1) * (hex_ua g P dm0 dm1 / cap_sup P dm0).
