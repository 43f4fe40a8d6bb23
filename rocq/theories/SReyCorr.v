(** Vocabulary for the Reynolds correction: what a measured point means. *)
From Coq Require Import Reals List.
From Verif Require Import MWater MMix MReyCorr.
Local Open Scope R_scope.

(** Number of channels of a side. *)
Definition channels (g : hexgeo) (s : hside) : R :=
  match s with Supply => hg_nsup g | Demand => hg_ndmd g end.
(** Plates at least 74 hydraulic diameters long, with channels on the side [s]. *)
Definition plate_ok (g : hexgeo) (s : hside) : Prop :=
  0 < hg_dh g /\ 74 * hg_dh g <= hg_x g /\ 0 < hg_A_chan g /\ 0 < channels g s.
(** Liquid water that is heated or cooled. *)
Definition point_ok (p : hpoint) : Prop :=
  0 <= (hp_Tin p + hp_Tout p) / 2 <= 100 /\ hp_Tin p <> hp_Tout p.
(** The massflow [m] carries the power of the point. *)
Definition carries (p : hpoint) (m : R) : Prop :=
  0 <= m /\ Rabs (hp_P p) = m * cp_water ((hp_Tin p + hp_Tout p) / 2) * Rabs (hp_Tin p - hp_Tout p).
(** Reynolds number in the channels of a side. *)
Definition side_Re (g : hexgeo) (s : hside) (m T : R) : R :=
  m * hg_dh g / (channels g s * hg_A_chan g * rho_water T * ny_water T).
(** The coefficient the simulation uses for a side ([hex_UA]) when the exchanger has the
    correction [x]. *)
Definition side_alpha (g : hexgeo) (s : hside) (x m T : R) : R :=
  hex_alpha (with_corr g x) (m / channels g s) T.
(** The point was measured at an exchanger whose correction is [c]. *)
Definition measured (g : hexgeo) (s : hside) (c : R) (p : hpoint) : Prop :=
  point_ok p /\ exists m, carries p m /\ 0 < side_Re g s m ((hp_Tin p + hp_Tout p) / 2) + c /\
    hp_target p = side_alpha g s c m ((hp_Tin p + hp_Tout p) / 2).
