(** Model of the temperature differentials of the one-dimensional parts: pipe, branched pipe,
    heated pipe and thermal energy storage (TES), and of their stability check.
    Source: multisim/precomp_funs.py, lines given at each definition.
    Simplifications: exact real arithmetic; arrays are functions from the index, with the
    number of cells [n] and ports [np] in the geometry; the extended temperature array has
    index 0 and [n+1] for the outer dummy cells, cell [j] is entry [j+1].  A fractional power of
    a negative number (NaN in the code) is outside the model; [npow] is only used on
    nonnegative numbers for the temperatures named in the theorems. *)
From Coq Require Import Reals List Arith Bool.
From Verif Require Import MFlow MWater.
Open Scope R_scope.

(** [x ** y] for a fractional exponent; numpy gives 0 for [x = 0], [y > 0]. *)
Definition npow (x y : R) : R := if Req_EM_T x 0 then 0 else Rpower x y.

(** Fixed data of a part, as passed to the differential functions (lines 1031-1091 and
    2095-2165).  [g_own]: cell of each port; [g_x]: distance of the cells from the pipe start;
    lid data are only used by the TES. *)
Record geo := {
  g_n : nat; g_np : nat; g_own : nat -> nat;
  g_A : R; g_V : R; g_gsp : R; g_di : R; g_x : arr; g_L : R;
  g_rt : R; g_rlw : R; g_rli : R; g_rr : R; g_Ai : R; g_As : R; g_vert : bool;
  g_lw : R; g_li : R; g_mw : R; g_tbw : R;
  g_pgsp : arr; g_psub : arr; g_pA : arr; g_pw : arr;
  g_swll : R; g_sins : R; g_Llid : R; g_vlid : bool }.

(** Arrays that live from one evaluation to the next and are read before they are written:
    [alpha_inf] and [UA_amb_shell]. *)
Record buf := { b_ainf : arr; b_ua : arr }.
(** multisim/parts/pipe.py 120, 138; tes.py 210, 229. *)
Definition buf0 : buf := {| b_ainf := fun _ => 3.122; b_ua := fun _ => 0 |}.

(** [_lambda_mean_view], lines 471-487: between cell [j] and [j+1]. *)
Definition lam_mean (lam : arr) : arr := fun j => 2 * lam j * lam (S j) / (lam j + lam (S j)).

(** [UA_plate_tb], lines 506-516; the outer entries stay 0 (pipe.py 136, tes.py 227). *)
Definition ua_tb (g : geo) (lmean : arr) : arr := fun k =>
  if (1 <=? k)%nat && (k <? g_n g)%nat
  then g_A g / g_gsp g * lmean (k - 1)%nat + g_tbw g else 0.

(** [surface_temp_steady_state_inplace], lines 5230-5262. *)
Definition surface_temp (T Tinf As ainf ua : R) : R := Tinf + (T - Tinf) * ua / (ainf * As).

(** [pipe_alpha_i], lines 4344-4416, one cell: flow [dm], temperature [T], distance [x]. *)
Definition log10 (x : R) : R := ln x / ln 10.
Definition reynolds (dm rho A di ny : R) : R := Rabs (dm / (rho * A)) * di / ny.
Definition nu_laminar (Pe di x : R) : R :=
  npow (49.371 + (1.077 * npow (Pe * di / x) (1 / 3) - 0.7) ^ 3) (1 / 3).
Definition nu_turbulent (Re Pr di x : R) : R :=
  let f := / ((1.8 * log10 Re - 1.5) ^ 2) in
  (f / 8 * (Re * Pr)) / (1 + 12.7 * (npow Pr (2 / 3) - 1) * sqrt (f / 8))
  * (1 + npow (di / x) (2 / 3) / 3).
Definition alpha_in (dm T A di x : R) : R :=
  let Re := reynolds dm (rho_water T) A di (ny_water T) in
  (if Rlt_dec 2300 Re then nu_turbulent Re (Pr_water T) di x
   else nu_laminar (Re * Pr_water T) di x) * lambda_water T / di.
(** [x] is reversed when the first entry of [dm] is negative (lines 4384-4387). *)
Definition alpha_i (g : geo) (dm T : arr) : arr := fun j =>
  alpha_in (dm j) (T j) (g_A g) (g_di g)
    (if Rlt_dec (dm 0%nat) 0 then g_x g (g_n g - 1 - j)%nat else g_x g j).

(** [rayleigh_number] lines 3906-3947 and the same expression in [cylinder_alpha_inf]. *)
Definition rayleigh (Ts Tinf L ny : R) : R :=
  Rabs (Ts - Tinf) * 9.81 * L ^ 3 * 0.708 / ((Tinf + 273.15) * ny ^ 2).

(** [cylinder_alpha_inf], lines 4687-4757. *)
Definition cyl_alpha_inf (Ts Tinf L : R) (vert : bool) (rt : R) : R :=
  let Tm := (Tinf + Ts) / 2 in
  let Ra := rayleigh Ts Tinf L (ny_dryair Tm) in
  (if vert
   then (0.825 + 0.387 * npow (Ra * 0.3466023585520853) (1 / 6)) ^ 2 + 0.435 * L / (2 * rt)
   else (0.752 + 0.387 * npow (Ra * 0.3269207911296459) (1 / 6)) ^ 2) * lam_dryair Tm / L.

(** [plane_alpha_inf] with [vert_plane_alpha_inf] and [hor_plane_alpha_inf], lines 4760-4908. *)
Definition plane_alpha_inf (Ts Tinf L : R) (vert top : bool) : R :=
  let Tm := (Tinf + Ts) / 2 in
  let Ra := rayleigh Ts Tinf L (ny_dryair Tm) in
  (if vert then (0.825 + 0.387 * npow (Ra * 0.3466023585520853) (1 / 6)) ^ 2
   else if (if top then (if Rle_dec Tinf Ts then true else false)
                   else (if Rlt_dec Ts Tinf then true else false))
        then (let r := Ra * 0.40306002707296223 in
              if Rle_dec r 70000 then 0.766 * npow r (1 / 5) else 0.15 * npow r (1 / 3))
        else 0.6 * npow (Ra * 0.3466023585520853) (1 / 5)) * lam_dryair Tm / L.

(** [UA_fld_wll_ins_amb_cyl], lines 4912-4967. *)
Definition ua_cyl (g : geo) (ai ainf : R) : R :=
  g_Ai g / (1 / ai + g_rlw g / g_lw g + g_rli g / g_li g + g_rr g / ainf).
(** [UA_fld_wll_ins_amb_plate], lines 5161-5198.  A vanishing outer coefficient means [1/0 = inf]
    in the array expression of the code, hence conductance 0. *)
Definition ua_plate (g : geo) (ai ainf : R) : R :=
  if Req_EM_T ainf 0 then 0
  else g_A g / (1 / ai + g_swll g / g_lw g + g_sins g / g_li g + 1 / ainf).

(** Port conductance in [_process_ports_collapsed], lines 250-301. *)
Definition ua_port (g : geo) (Tp T : arr) : arr := fun i =>
  g_pA g i / (g_pgsp g i / (2 * lambda_water (Tp i))
              + g_gsp g / (2 * lambda_water (T (g_own g i)))) + g_pw g i.

(** [for i in range(m): a[own[i]] += c[i]]. *)
Fixpoint add_ports (own : nat -> nat) (c : arr) (m : nat) (a : arr) : arr :=
  match m with
  | O => a
  | S k => let b := add_ports own c k a in put (own k) (b (own k) + c k) b
  end.

(** Everything one evaluation of a part computes. *)
Record res := {
  r_tb : arr; r_ts : arr; r_ai : arr; r_ainf : arr; r_ua : arr; r_lid : arr; r_uap : arr;
  r_rho : arr; r_rhocp : arr; r_mcp : arr;
  r_cond : arr; r_adv : arr; r_heat : arr; r_tot : arr }.

(** Body common to [pipe1D_diff] (lines 1031-1234), [pipe1D_branched_diff] (1662-1868),
    [heatedpipe1D_diff] (1872-2090) and [tes_diff] (2095-2372), after the flows were processed.
    [lmean]: conductivity between cells; [dm]: flow passed to [pipe_alpha_i]; [f]: processed
    flows; [lids]: TES lids; [heat]: temperature rise rate by heating. *)
Definition part_diff (g : geo) (lmean : arr -> arr) (dm : arr) (f : flows) (lids : bool)
  (heat : arr -> arr) (Tx Tp : arr) (Tamb : R) (b : buf) : res :=
  let n := g_n g in
  let T := fun j => Tx (S j) in
  let cp := fun k => cp_water (Tx k) in
  let lam := fun j => lambda_water (T j) in
  let rho := fun j => rho_water (T j) in
  let tb := ua_tb g (lmean lam) in
  let ts := fun j => surface_temp (T j) Tamb (g_As g) (b_ainf b j) (b_ua b j) in
  let ai := alpha_i g dm T in
  let ainf := fun j => cyl_alpha_inf (ts j) Tamb (g_L g) (g_vert g) (g_rt g) in
  let ua := fun j => ua_cyl g (ai j) (ainf j) in
  (* lids: entry 0 is the top lid (cell 0), entry 1 the bottom lid (cell n-1) *)
  let lid := fun k => match k with
    | O => ua_plate g (ai 0%nat) (plane_alpha_inf (ts 0%nat) Tamb (g_Llid g) (g_vlid g) true)
    | _ => ua_plate g (ai (n - 1)%nat)
             (plane_alpha_inf (ts (n - 1)%nat) Tamb (g_Llid g) (g_vlid g) false) end in
  let rhocp := fun j => rho j * cp (S j) in
  let mcp := fun j => g_V g * rhocp j + g_mw g in
  let ui := fun j => cp (S j) * Tx (S j) in
  let uap := ua_port g Tp T in
  let cond0 := fun j => (tb j * (Tx j - Tx (S j)) + tb (S j) * (Tx (S (S j)) - Tx (S j))
                         + ua j * (Tamb - Tx (S j))) / mcp j in
  let cond1 := if lids
    then let c := put 0 (cond0 0%nat + lid 0%nat * (Tamb - Tx 1%nat) / mcp 0%nat) cond0 in
         put (n - 1) (c (n - 1)%nat + lid 1%nat * (Tamb - Tx n) / mcp (n - 1)%nat) c
    else cond0 in
  let adv0 := fun j => (f_top f j * (cp j * Tx j - ui j)
                        + f_bot f j * (cp (S (S j)) * Tx (S (S j)) - ui j)) / mcp j in
  let cond := add_ports (g_own g)
    (fun i => uap i * (Tp i - T (g_own g i)) / mcp (g_own g i)) (g_np g) cond1 in
  let adv := add_ports (g_own g)
    (fun i => f_port f i * (cp_water (Tp i) * Tp i - ui (g_own g i)) / mcp (g_own g i))
    (g_np g) adv0 in
  let hd := heat mcp in
  {| r_tb := tb; r_ts := ts; r_ai := ai; r_ainf := ainf; r_ua := ua; r_lid := lid; r_uap := uap;
     r_rho := rho; r_rhocp := rhocp; r_mcp := mcp;
     r_cond := cond; r_adv := adv; r_heat := hd;
     r_tot := fun j => cond j + adv j + hd j |}.

(** Buffers after an evaluation. *)
Definition buf_after (r : res) : buf := {| b_ainf := r_ainf r; b_ua := r_ua r |}.

Definition no_heat : arr -> arr := fun _ _ => 0.

(** [pipe1D_diff]: one flow [io] through the pipe; [f] are the flow arrays before the call. *)
Definition pipe_diff (g : geo) (io : R) (f : flows) (Tx Tp : arr) (Tamb : R) (b : buf) : res :=
  part_diff g lam_mean (fun _ => io) (process_flow_invar (g_n g) (g_np g) io f) false no_heat
    Tx Tp Tamb b.

(** [pipe1D_branched_diff]: one flow per port. *)
Definition branched_diff (g : geo) (io : arr) (f : flows) (Tx Tp : arr) (Tamb : R) (b : buf) : res :=
  let pf := process_flow_var (g_n g) (g_np g) (g_own g) io f in
  part_diff g lam_mean (snd pf) (fst pf) false no_heat Tx Tp Tamb b.

(** [heatedpipe1D_diff], lines 1938-1945 and 2056: power [dQ] on the cells [lo .. hi-1];
    [heat_mult] as set in multisim/parts/heated_pipe.py 96-153. *)
Definition heat_power (n : nat) (Tx : arr) (dQ : R) : R :=
  if existsb (fun k => if Rle_dec 110 (Tx k) then true else false) (seq 0 (n + 2)) then 0 else dQ.
Definition heated (lo hi : nat) (p : R) (mcp : arr) : arr := fun j =>
  if (lo <=? j)%nat && (j <? hi)%nat then p * (1 / INR (hi - lo)) / mcp j else 0.
Definition heated_diff (g : geo) (lo hi : nat) (dQ io : R) (f : flows) (Tx Tp : arr) (Tamb : R)
  (b : buf) : res :=
  part_diff g lam_mean (fun _ => io) (process_flow_invar (g_n g) (g_np g) io f) false
    (heated lo hi (heat_power (g_n g) Tx dQ)) Tx Tp Tamb b.

(** [buoyancy_byNusselt], lines 542-595: correction of the conductivity between cell [j] (above)
    and [j+1] (below). *)
Definition buoyancy_nu (di T : R) (dT : R) : R :=
  let Pr := Pr_water T in
  let beta := Rabs (beta_water T) in
  let L := di / 4 in
  let Ra := Pr * 9.81 * L ^ 3 * beta * dT / (ny_water T) ^ 2 in
  let Ra2 := Ra * Rpower (1 + npow (0.322 / Pr) (11 / 20)) (- 20 / 11) in
  if Rlt_dec 70000 Ra2 then 0.15 * npow Ra2 (1 / 3) else 0.766 * npow Ra2 0.2.
Definition no_inversion (n : nat) (T : arr) : bool :=
  forallb (fun j => if Rle_dec (T (S j) - T j) 0 then true else false) (seq 0 (n - 1)).
Definition buoyancy (n : nat) (di : R) (T lmean : arr) : arr :=
  if no_inversion n T then lmean
  else fun j =>
    let d := T (S j) - T j in
    let nu := buoyancy_nu di (T (S j)) (if Rlt_dec d 0 then 0 else d) in
    if Rle_dec 1 nu then lmean j * (nu * 20) else lmean j.

(** [tes_diff], lines 2095-2372. *)
Definition tes_diff (g : geo) (io : arr) (f : flows) (Tx Tp : arr) (Tamb : R) (b : buf) : res :=
  let pf := process_flow_var (g_n g) (g_np g) (g_own g) io f in
  part_diff g (fun lam => buoyancy (g_n g) (g_di g) (fun j => Tx (S j)) (lam_mean lam))
    (snd pf) (fst pf) true no_heat Tx Tp Tamb b.

(** [np.max] over the entries [0 .. n-1] of a nonempty array. *)
Fixpoint rmax (k : nat) (f : arr) : R :=
  match k with O => f 0%nat | S j => Rmax (rmax j f) (f (S j)) end.
Definition amax (n : nat) (f : arr) : R := rmax (n - 1) f.

(** [vN_diff.max()] in both stability routines, lines 684-703 and 946-961. *)
Definition vn_diff (g : geo) (r : res) (dt : R) : R :=
  Rmax (Rmax
    (amax (g_n g - 1) (fun j => r_tb r (S j) / r_rhocp r (S j)) * dt / (g_A g * g_gsp g))
    (amax (g_np g) (fun i => r_uap r i / (g_pA g i * g_psub g i)) * dt
       / amax (g_n g) (r_rhocp r)))
    (amax (g_n g) (fun j => r_ua r j / r_rhocp r j) * dt / (g_As g * g_rt g)).
(** The divider [vN_div_max] for a largest relevant flow [m], lines 708-718. *)
Definition vn_div (g : geo) (r : res) (m dt : R) : R :=
  Rmax (vn_diff g r dt / 0.5) (m * dt / (g_V g * amax (g_n g) (r_rho r)) / 1).
(** Largest relevant flow: pipes with one flow; branched pipes (port flows), line 710;
    storages, lines 974-978. *)
Definition flow_pipe (io : R) : R := Rabs io.
Definition flow_branched (np : nat) (io : arr) : R := amax np (fun i => Rabs (io i)).
Definition flow_tes (n np : nat) (f : flows) : R :=
  Rmax (Rmax (amax n (f_top f)) (amax n (f_bot f))) (amax np (fun i => Rabs (f_port f i))).

(** A port with zero cross-section (the connected part does not conduct: simenv.py 1829-1833,
    2595-2596) makes [UA_port / (A_port * port_subs_gsp)] the quotient 0/0, NaN, which [np.max]
    hands on.  [None] stands for NaN; [max] of a NaN first argument is NaN. *)
Definition vn_div_nan (g : geo) (r : res) (m dt : R) : option R :=
  if existsb (fun i => if Req_EM_T (g_pA g i * g_psub g i) 0 then true else false) (seq 0 (g_np g))
  then None else Some (vn_div g r m dt).

(** System-wide step information: [step_stable], [vN_max_step], [max_factor]. *)
Record stab := { st_ok : bool; st_max : R; st_fac : R }.
(** Lines 719-741 (and 992-1013): what the check does with the divider. *)
Definition stability_check (div dt : R) (s : stab) : stab :=
  if Rlt_dec 1 div then
    let loc := dt / div * 0.95 in
    {| st_ok := false;
       st_max := if Rlt_dec loc (st_max s) then loc else st_max s;
       st_fac := if Rlt_dec 1.05 (st_fac s)
                 then let p := Rpower (st_fac s) 0.99 in if Rlt_dec p 1.05 then 1.05 else p
                 else st_fac s |}
  else s.

(** The same with a divider that may be NaN: comparison with NaN is false. *)
Definition stability_check_nan (div : option R) (dt : R) (s : stab) : stab :=
  match div with Some d => stability_check d dt s | None => s end.

(** [series_circuit_UA] and [parallel_circuit_UA], lines 5289-5349. *)
Definition series_circuit (a : R) (l : list R) : R := 1 / fold_left (fun s x => s + 1 / x) l (1 / a).
Definition parallel_circuit (a : R) (l : list R) : R := fold_left (fun s x => s + x) l a.

(** The heated pipe as it is called: the stored power [dQ_heating] is overwritten by an emergency
    shutdown (line 1940-1941) and stays overwritten until the controller writes it again, once
    per accepted step (simenv.py 5011-5024). *)
Definition heated_eval (g : geo) (lo hi : nat) (io : R) (f : flows) (Tx Tp : arr) (Tamb : R)
  (st : R * buf) : res * (R * buf) :=
  let r := heated_diff g lo hi (fst st) io f Tx Tp Tamb (snd st) in
  (r, (heat_power (g_n g) Tx (fst st), buf_after r)).
