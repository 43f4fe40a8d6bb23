(** Specification vocabulary for the numeric heat exchanger (C87-C91). *)
From Coq Require Import Reals List Arith.
From Verif Require Import MFlow MWater MHexNum SFlow.
Open Scope R_scope.

(** Where the four ports are: supply top and bottom, demand top and bottom. *)
Definition port_row (n p : nat) : nat := match p with 0%nat | 2%nat => 0 | _ => n - 1 end.
Definition port_col (p : nat) : nat := match p with 0%nat | 1%nat => 0 | _ => 2 end.

(** Heat capacity of cell [(i, c)]: its water, or its part of the plate. *)
Definition hcap (g : hexn) (Tx : grid) (i c : nat) : R :=
  match c with
  | 1%nat => hn_mcpw g
  | _ => hn_V g * (rho_water (Tx (S i) (S c)) * cp_water (Tx (S i) (S c)))
  end.
(** Heat entering the two channels and the plate per second when the cells warm up at [rate]. *)
Definition hheat (g : hexn) (Tx rate : grid) : R :=
  rsum (hn_n g) (fun i => rsum 3 (fun c => hcap g Tx i c * rate i c)).
(** The same for one column. *)
Definition hheat_col (g : hexn) (Tx rate : grid) (c : nat) : R :=
  rsum (hn_n g) (fun i => hcap g Tx i c * rate i c).

(** Enthalpy of a kilogram of water as the code counts it. *)
Definition henth (T : R) : R := cp_water T * T.
(** Enthalpy a side's water carries in minus what it carries out: a positive flow enters at the
    top port and leaves from the last cell, a negative one the other way round. *)
Definition side_heat (g : hexn) (io : arr) (Tx : grid) (Tp : arr) (s : nat) : R :=
  let c := (2 * s)%nat in
  Rmax 0 (io s) * (henth (Tp (2 * s)%nat) - henth (Tx (hn_n g) (S c)))
  + Rmax 0 (- io s) * (henth (Tp (2 * s + 1)%nat) - henth (Tx 1%nat (S c))).
(** Heat conducted in through the ports with conductances [uap]. *)
Definition port_heat (g : hexn) (uap : arr) (Tx : grid) (Tp : arr) : R :=
  rsum 4 (fun p => uap p * (Tp p - Tx (S (port_row (hn_n g) p)) (S (port_col p)))).

(** Flow arrays after any number of evaluations. *)
Inductive hflows_at (n : nat) : hflows -> Prop :=
| hf_new : hflows_at n hflows0
| hf_step io f : hflows_at n f -> hflows_at n (hexn_flows n io f).

Definition hn_range (g : hexn) (Tx : grid) (Tp : arr) : Prop :=
  (forall i c, (i < hn_n g)%nat -> (c < 3)%nat -> 0 <= Tx (S i) (S c) <= 100) /\
  (forall p, (p < 4)%nat -> 0 <= Tp p <= 100).
Definition hn_ok (g : hexn) : Prop :=
  (1 <= hn_n g)%nat /\ (1 <= hn_div g 0)%nat /\ (1 <= hn_div g 1)%nat /\
  0 < hn_Ach g /\ 0 < hn_gsp g /\ 0 < hn_dh g /\ 0 < hn_s g /\ 0 < hn_corr g /\ 0 < hn_A g /\
  0 < hn_V g /\ 0 < hn_lamw g /\ 0 < hn_mcpw g /\ 0 <= hn_uaw g /\
  (forall i, (i < hn_n g)%nat -> 0 < hn_x g i) /\
  (forall p, (p < 4)%nat -> 0 < hn_pA g p /\ 0 < hn_pgsp g p /\ 0 < hn_psub g p /\ 0 <= hn_pw g p).

(** Nothing changes. *)
Definition steady (g : hexn) (r : hres) : Prop :=
  forall i c, (i < hn_n g)%nat -> (c < 3)%nat -> hr_tot r i c = 0.
