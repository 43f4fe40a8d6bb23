(** Model of the geometry set up by the constructors of pipes and thermal energy storages.
    Source: multisim/parts/pipe.py 60-430, multisim/parts/tes.py 126-192 and 428-513,
    multisim/precomp_funs.py 4270-4330 and 4912-4967.
    Simplifications: exact real arithmetic; [None] stands for an exception raised by the
    constructor; the material data and pipe dimensions found in the tables are arguments; the
    parameters of the ports, which are set when the ports are connected (MPortCond), are
    arguments.  [np.log] of a negative number, NaN in the code, is the arbitrary value of [ln]. *)
From Coq Require Import Reals List Arith ZArith Bool.
From Verif Require Import MFlow MWater MDiff.
Import ListNotations.
Open Scope R_scope.

(** Parameters of the ports of a part, see MPortCond. *)
Record prts := { p_np : nat; p_own : nat -> nat; p_gsp : arr; p_sub : arr; p_A : arr; p_w : arr }.

(** [np.arange(start, stop, step)]: [ceil((stop - start) / step)] entries. *)
Definition ceil (x : R) : Z := (- Int_part (- x))%Z.
Definition arange (start stop step : R) : list R :=
  map (fun i => start + INR i * step) (seq 0 (Z.to_nat (ceil ((stop - start) / step)))).

(** [calc_flow_length], precomp_funs.py 4270-4330. *)
Inductive shape :=
| plane_v (height : R) | plane_h (width depth : R)
| cylinder_v (height : R) | cylinder_h (diameter : R) | sphere (diameter : R).
Definition calc_flow_length (s : shape) : R :=
  match s with
  | plane_v h => h | cylinder_v h => h
  | plane_h w d => (w * d) / (2 * (w + d))
  | cylinder_h d => d * PI / 2
  | sphere d => d
  end.

(** Arguments of [add_part(Pipe, ...)]: length and grid points; insulation; dimensions of the pipe
    ([d_i], [d_o], [A_i] of the pipe specifications); material. *)
Record pipe_arg := {
  pa_len : R; pa_gp : Z; pa_sins : R; pa_lins : R;
  pa_di : R; pa_do : R; pa_A : R; pa_cp : R; pa_rho : R; pa_lam : R }.

Definition pos_dec (x : R) : bool := if Rlt_dec 0 x then true else false.
Definition nonneg_dec (x : R) : bool := if Rle_dec 0 x then true else false.
Definition is0 (x : R) : bool := if Req_EM_T x 0 then true else false.

(** pipe.py 97-99: distance of the cells from the start of the pipe. *)
Definition pipe_dist (a : pipe_arg) : list R :=
  let gsp := pa_len a / IZR (pa_gp a) in arange (gsp / 2) (pa_len a) gsp.

(** [Pipe.__init__] (pipe.py 71-99) and [Pipe.init_part] (pipe.py 319-430).  The tests on types are
    left out.  Division by zero raises an exception. *)
Definition pipe_new (a : pipe_arg) (p : prts) : option geo :=
  if (pos_dec (pa_len a) && (0 <? pa_gp a)%Z && nonneg_dec (pa_sins a) && nonneg_dec (pa_lins a))%bool
  then
    let gsp := pa_len a / IZR (pa_gp a) in
    let ri := pa_di a / 2 in
    let ro := pa_do a / 2 in
    let rt := pa_do a / 2 + pa_sins a in
    if (is0 ri || is0 ro || is0 rt)%bool then None
    else
      let cs := PI / 4 * (pa_do a ^ 2 - pa_di a ^ 2) in
      Some {| g_n := Z.to_nat (pa_gp a); g_np := p_np p; g_own := p_own p;
         g_A := pa_A a; g_V := pa_A a * gsp; g_gsp := gsp; g_di := pa_di a;
         g_x := fun j => nth j (pipe_dist a) 0;
         g_L := calc_flow_length (cylinder_h (rt * 2));
         g_rt := rt; g_rlw := ri * ln (ro / ri); g_rli := ri * ln (rt / ro); g_rr := ri / rt;
         g_Ai := PI * pa_di a * gsp; g_As := PI * rt * 2 * gsp; g_vert := false;
         g_lw := pa_lam a; g_li := pa_lins a;
         g_mw := pa_cp a * pa_rho a * (cs * pa_len a) / IZR (pa_gp a);
         g_tbw := cs / gsp * pa_lam a;
         g_pgsp := p_gsp p; g_psub := p_sub p; g_pA := p_A p; g_pw := p_w p;
         g_swll := ro - ri; g_sins := pa_sins a; g_Llid := 1; g_vlid := true |}
  else None.

(** Arguments of [add_part(Tes, ...)]. *)
Record tes_arg := {
  ta_vol : R; ta_gp : Z; ta_do : R; ta_shell : R; ta_sins : R; ta_lins : R;
  ta_cp : R; ta_rho : R; ta_lam : R }.

(** [Tes.__init__] (tes.py 126-192) and [Tes.init_part] (tes.py 408-513).  Checked are: outer
    diameter > 0, 0 < shell thickness < 1 (lines 136-153), insulation >= 0 (lines 411-431); the volume and
    the sign of [grid_points] are not checked.  Exceptions otherwise: division by zero for
    [grid_points = 0] (line 166), an inner diameter of 0 (line 168) or volume 0 (line 471); negative array
    length for [grid_points < 0] (line 175); slice with step 0 for [grid_points = 1] (line 203). *)
Definition tes_new (a : tes_arg) (p : prts) : option geo :=
  if (pos_dec (ta_do a) && pos_dec (ta_shell a) && pos_dec (1 - ta_shell a)
      && nonneg_dec (ta_sins a) && nonneg_dec (ta_lins a))%bool
  then
    let di := ta_do a - 2 * ta_shell a in
    if ((ta_gp a <=? 1)%Z || is0 di || is0 (ta_vol a))%bool then None
    else
      let A := PI * di ^ 2 / 4 in
      let len := ta_vol a / (PI * di ^ 2 / 4) in
      let gsp := len / IZR (ta_gp a) in
      let cs := PI / 4 * (ta_do a ^ 2 - di ^ 2) in
      let ri := di / 2 in
      let ro := ta_do a / 2 in
      let rt := ta_do a / 2 + ta_sins a in
      Some {| g_n := Z.to_nat (ta_gp a); g_np := p_np p; g_own := p_own p;
         g_A := A; g_V := ta_vol a / IZR (ta_gp a); g_gsp := gsp; g_di := di;
         g_x := fun _ => len * (1.077 / 1.615) ^ 3;
         g_L := calc_flow_length (cylinder_v gsp);
         g_rt := rt; g_rlw := ri * ln (ro / ri); g_rli := ri * ln (rt / ro); g_rr := ri / rt;
         g_Ai := PI * di * gsp; g_As := PI * rt * 2 * gsp; g_vert := true;
         g_lw := ta_lam a; g_li := ta_lins a;
         g_mw := ta_cp a * ta_rho a * (cs * len) / IZR (ta_gp a);
         g_tbw := cs / gsp * ta_lam a;
         g_pgsp := p_gsp p; g_psub := p_sub p; g_pA := p_A p; g_pw := p_w p;
         g_swll := ro - ri; g_sins := ta_sins a;
         g_Llid := calc_flow_length (plane_h (rt * 2) (rt * 2)); g_vlid := false |}
  else None.

(** [UA_fld_wll_ins_amb_cyl], precomp_funs.py 4912-4967: the terms [r_ln_wll / lam_wll] and
    [r_ln_ins / lam_ins] are scalar divisions, which raise an exception for a zero divisor. *)
Definition ua_cyl_eval (g : geo) (ai ainf : R) : option R :=
  if (is0 (g_lw g) || is0 (g_li g))%bool then None else Some (ua_cyl g ai ainf).
