(** Model of the geometry of plate heat exchangers.

    Code modelled (all paths under /repo/multisim):
    - parts/hex_num.py 649-1104 and parts/heatexchanger.py 504-939 [get_plate_hex_geometry] with its local functions
      (areas, thickness, volumes, masses, outer surface; the assertions on the arguments)

    The two versions differ in the mass only; [e_num] tells them apart.

    Simplifications: floats are exact reals, [np.pi] is pi; arguments are numbers or missing (other types are
    refused by the assertions that test a type). *)
From Coq Require Import Reals.
Open Scope R_scope.

(** The keyword arguments; [None]: not given. *)
Record args := mkArgs {
  a_length : option R; a_width : option R; a_port : option R; a_corner : option R;
  a_area : option R;                       (* channel_area *)
  a_plate : option R;                      (* A_plate *)
  a_depth : option R; a_depth_base : option R; a_per_plate : option R;   (* depth_per_plate *)
  a_channel : option R;                    (* channel_width *)
  a_thick : option R;                      (* plate_thickness *)
  a_volume : option R;                     (* V_channel *)
  a_mass_plate : option R; a_mass_base : option R; a_mass_total : option R
}.
(** What is known from elsewhere: [HexNum] or [HeatExchanger], number of plates and grid points, wall density, thickness of the insulation. *)
Record env := mkEnv { e_num : bool; e_plates : R; e_gp : R; e_rho : R; e_ins : R }.

(** The attributes that are set. *)
Record geom := mkGeom {
  q_plate : R;                             (* A_plate *)
  q_depth : R;
  q_channel : R; q_thick : R;              (* _s_channel, _s_plate *)
  q_area : R; q_volume : R;                (* A_channel, V_ch_fld_tot *)
  q_mass : R;                              (* _m_hex_wll *)
  q_cell : R;                              (* V_cell_fld *)
  q_out : R; q_out_ins : R;                (* _A_o, _A_o_ins *)
  q_vplate : R; q_vcell : R                (* _V_plate, _V_cell_wll *)
}.

(** hex_num.py 655-665. *)
Definition plate_area (l w d r : R) : R :=
  l * w - d ^ 2 * PI - ((2 * r) ^ 2 - r ^ 2 * PI).
(** 686-691. *)
Definition rim (l w r : R) : R := 2 * l + 2 * w - 8 * r + 2 * r * PI.
(** 667-694. *)
Definition thickness (dm rho A dd l w r : R) : R := dm / ((A + dd * rim l w r) * rho).

Definition pos (x : option R) : bool :=
  match x with Some x => if Rlt_dec 0 x then true else false | None => false end.
Definition val (x : option R) : R := match x with Some x => x | None => 0 end.
(** [if 'x' in kwargs: assert x > 0]. *)
Definition pos_if (x : option R) : bool := match x with Some _ => pos x | None => true end.

(** Plate thickness of methods one and three, 902-915 and 989-1002. *)
Definition by_depth (a : args) (s : R) : option R :=
  match a_thick a with
  | None => if pos (a_per_plate a) then Some (val (a_per_plate a) - s) else None
  | Some t => if pos (Some t) then Some t else None
  end.

(** Channel width, plate thickness and channel volume, 885-1011; [None]: an assertion fails. *)
Definition channels (a : args) (rho l w d r A : R) : option (R * R * R) :=
  match a_channel a with
  | Some s =>
      if negb (pos (Some s)) then None else
      match by_depth a s with
      | None => None
      | Some t =>
          match a_volume a with
          | Some v => if pos (Some v) then Some (s, t, v) else None
          | None => Some (s, t, s * A)
          end
      end
  | None =>
  match a_mass_plate a with
  | Some m =>
      if negb (andb (pos (a_per_plate a)) (pos (Some m))) then None else
      let dd := val (a_per_plate a) in
      match (match a_thick a with
             | None => Some (thickness m rho A dd l w r)
             | Some t => if pos (Some t) then Some t else None end) with
      | None => None
      | Some t =>
          let s := dd - t in
          Some (s, t, match a_volume a with
                      | None => (plate_area l w 0 r - 2 * d ^ 2 * PI / 4) * s
                      | Some v => v end)
      end
  | None =>
  match a_volume a with
  | Some v =>
      if negb (pos (Some v)) then None else
      let s := v / plate_area l w 0 r in
      match by_depth a s with
      | None => None
      | Some t => Some (s, t, v)
      end
  | None => None
  end end end.

(** hex_num.py 1040-1053: the mass of a plate has to be given in any case.  heatexchanger.py 897-905: [_diff_m] is
    used together with [mass_base], but it is only set where the mass of a plate gives the channel width;
    [None]: an assertion fails, or the attribute is missing. *)
Definition mass (num : bool) (a : args) (plates : R) : option R :=
  if num then
    match a_mass_plate a, a_mass_base a with
    | Some m, Some b => Some (b + m * plates)
    | Some _, None => a_mass_total a
    | None, _ => None
    end
  else
    match a_mass_base a with
    | Some b =>
        match a_mass_plate a, a_channel a with
        | Some m, None => Some (b + m * plates)
        | _, _ => None
        end
    | None => a_mass_total a
    end.

(** 862-879: [depth] alone is tested if it is given; [depth_base] is used whenever it is given. *)
Definition total_depth (a : args) (plates : R) : option R :=
  if orb (pos (a_depth a)) (andb (pos (a_depth_base a)) (pos (a_per_plate a))) then
    match a_depth_base a with
    | Some b => match a_per_plate a with Some p => Some (b + p * plates) | None => None end
    | None => a_depth a
    end
  else None.

(** [get_plate_hex_geometry]. *)
Definition geometry (e : env) (a : args) : option geom :=
  if negb (andb (andb (pos (a_length a)) (pos (a_width a))) (andb (pos (a_port a)) (pos_if (a_area a)))) then None
  else
  let l := val (a_length a) in let w := val (a_width a) in let d := val (a_port a) in
  match a_corner a with
  | None => None
  | Some r =>
      if Rle_dec 0 r then
        let A := match a_plate a with Some A => A | None => plate_area l w d r end in
        match total_depth a (e_plates e), channels a (e_rho e) l w d r A, mass (e_num e) a (e_plates e) with
        | Some z, Some (s, t, v), Some m =>
            let i := e_ins e in
            Some (mkGeom A z s t
              (match a_area a with Some x => x | None => s * w end) v m (v / e_gp e)
              (plate_area l w 0 r * 2 + rim l w r * z)
              (plate_area (l + 2 * i) (w + 2 * i) 0 r * 2 + rim (l + 2 * i) (w + 2 * i) r * (z + 2 * i))
              (A * t) (A * t / e_gp e))
        | _, _, _ => None
        end
      else None
  end.
