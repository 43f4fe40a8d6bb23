(** Model of the model-predictive CHP controller (without the cost functions, see MMpcCost).

    Code: /repo/multisim/parts/controllers.py [ModelPredCHP.__init__] (674-1242; the parts
    named below), [_process_profiles] (1471-1580), [tes_cap_before_empty] (1591-1623),
    [tes_cap_before_full] (1625-1655), [_emergency_control] (1668-1749), [_adapt_cap]
    (1751-1777), [_longterm_opt_pred] (1779-1927), [_longterm_clip_array] (1929-1937),
    [_longterm_adj_by_soc] (1939-1971), [_longterm_clip_w_cont] (1973-2015),
    [_longterm_finalize_step] (2017-2026), [_restore_adptd_caps] (2028-2060), [_shortterm_opt]
    (2062-2100), [run_controller] (2102-2159).

    Simplifications: real arithmetic; the two scipy optimisers are inputs (whatever they
    return); the heat content of the storage is an input; [_preopt_x0] (the start value of the
    optimiser) is in MPreopt; profiles are lists with one entry per optimisation period; result
    arrays other than the modulation plan are left out. *)
From Coq Require Import Reals List Bool Arith.
From Verif Require Import MBC MCtrl MMpcCost.
Import ListNotations.
Open Scope R_scope.

(** ** Storage capacity *)

(** [np.cumsum]. *)
Fixpoint cumsum_from (a : R) (l : list R) : list R :=
  match l with [] => [] | x :: l => (a + x) :: cumsum_from (a + x) l end.
Definition cumsum := cumsum_from 0.

(** 1560-1566: cumulative heat demand in kWh from the demand in W; [oe] is [_opt_every]. *)
Definition heat_dmd_kum (oe : R) (dmd : list R) : list R :=
  map (fun c => c * oe / 3600000) (cumsum dmd).

(** 1807-1813: the entries of the horizon, started from the current one. *)
Definition horizon (n size : nat) (kum : list R) : list R :=
  let h := firstn size (skipn n kum) in map (fun v => v - hd 0 h) h.

(** [_precalc_pth_oe_uf] (1216-1218). *)
Definition pth_fac (pth oe : R) : R := pth * oe * (1 / 3600000).

Definition before_empty (soc_min fac : R) (dmd x : list R) : list R :=
  map2 Rplus (map (fun d => soc_min - d) dmd) (cumsum (map (fun v => v * fac) x)).
Definition before_full (soc_max fac : R) (dmd x : list R) : list R :=
  map (fun v => soc_max - v) (map2 Rminus (cumsum (map (fun v => v * fac) x)) dmd).

(** ** Modulation *)

(** 1929-1937, one entry. *)
Definition clip_entry (lo atol x : R) : R :=
  let x := if Rlt_dec x (lo - atol) then 0 else x in
  let x := if Rlt_dec x lo then if Req_EM_T x 0 then x else 1 / 2 else x in
  if Rlt_dec 1 x then 1 else x.
Definition clip_array (lo atol : R) : list R -> list R := map (clip_entry lo atol).

(** [np.any(l < 0)]. *)
Definition any_neg (l : list R) : bool := existsb (fun v => if Rlt_dec v 0 then true else false) l.
(** [x.max()] of a non-empty array. *)
Definition lmax (l : list R) : R := match l with [] => 0 | a :: l => fold_left Rmax l a end.

(** 1939-1971.  [None] stands for a division by a maximum that is not positive (numpy yields
    NaN or infinities). *)
Fixpoint scale_loop (fuel : nat) (lo atol : R) (empty : list R -> list R) (u x : list R)
  : option (list R * list R) :=
  match fuel with
  | O => Some (u, x)
  | S fuel =>
      if any_neg (empty x) then
        if Rlt_dec 0 (lmax u) then
          let u := map (fun v => v / sqrt (lmax u)) u in
          scale_loop fuel lo atol empty u (clip_array lo atol u)
        else None
      else Some (u, x)
  end.
Definition adj_by_soc (lo atol : R) (empty full : list R -> list R) (x : list R)
  : option (list R) :=
  if any_neg (full (clip_array lo atol x)) then Some x
  else
    match scale_loop 5 lo atol empty x x with
    | None => None
    | Some (u, y) =>
        match (if any_neg (empty y) then
                 if Rlt_dec 0 (lmax u) then
                   let u := map (fun v => v / lmax u) u in Some (u, clip_array lo atol u)
                 else None
               else Some (u, y)) with
        | None => None
        | Some (u, y) =>
            let u := if any_neg (full y) then x else u in
            Some (map (fun v => Rmin (Rmax v 0) 1) u)
        end
    end.

(** 1973-2015. *)
Definition clip_w_cont (inc : bool) (lo prev atol x : R) : R :=
  let strict := (inc && (if Rle_dec lo prev then false else true))%bool in
  let below := if Rle_dec (if strict then lo - atol else lo / 2) x then lo else 0 in
  if Rle_dec lo x then if Rle_dec x 1 then x else 1
  else if Rlt_dec 1 x then 1
  else below.

(** ** Controller *)

Record pcfg := mkPcfg {
  c_act_le : bool;     (* activation_sign = 'lower' *)
  c_act : R;           (* activation_value *)
  c_deact_ge : bool;   (* deactivation_sign = 'greater' *)
  c_use_hyst : bool;
  c_hyst : R;
  c_fp : R;            (* full_power_offset *)
  c_smin : R; c_smax : R; c_off : R; c_inv : bool;
  c_caps : R * R;      (* tes_soc_minmax *)
  c_rest : R;          (* tes_cap_restore_time *)
  c_lo : R; c_hi : R;  (* mod_range *)
  c_inc : bool         (* increase_continuity *)
}.

(** [_act_val_full_power] (789-793). *)
Definition full_power_val (c : pcfg) : R :=
  if c_act_le c then c_act c - c_fp c else c_act c + c_fp c.

(** Capacity limits: the limits used, the values they were adapted to, the times of the
    adaption, the flag [_caps_adapted]. *)
Record caps := mkCaps { k_use : R * R; k_bak : R * R; k_time : R * R; k_adp : bool }.
Definition fresh_caps (c : pcfg) : caps := mkCaps (c_caps c) (c_caps c) (0, 0) false.

(** 1751-1777; [cons] is [_emerg_cnsctv], [now] the heat content. *)
Definition adapt (lower cons : bool) (t now : R) (k : caps) : caps :=
  if cons then k
  else if lower then
    mkCaps (now, snd (k_use k)) (now, snd (k_bak k)) (t, snd (k_time k)) true
  else
    mkCaps (fst (k_use k), now) (fst (k_bak k), now) (fst (k_time k), t) true.

(** 2028-2060. *)
Definition restore (c : pcfg) (t : R) (k : caps) : caps :=
  if k_adp k then
    let f0 := (t - fst (k_time k)) / c_rest c in
    let f1 := (t - snd (k_time k)) / c_rest c in
    if Rle_dec 1 f0 then
      if Rle_dec 1 f1 then mkCaps (k_use k) (k_bak k) (k_time k) false
      else
        let g1 := if Rlt_dec 1 f1 then 1 else f1 in
        let g0 := if Rlt_dec 1 f0 then 1 else f0 in
        mkCaps (fst (k_bak k) * (1 - g0) + fst (c_caps c) * g0,
                snd (k_bak k) * (1 - g1) + snd (c_caps c) * g1) (k_bak k) (k_time k) true
    else
      let g0 := if Rlt_dec 1 f0 then 1 else f0 in
      let g1 := if Rlt_dec 1 f1 then 1 else f1 in
      mkCaps (fst (k_bak k) * (1 - g0) + fst (c_caps c) * g0,
              snd (k_bak k) * (1 - g1) + snd (c_caps c) * g1) (k_bak k) (k_time k) true
  else k.

(** Controller state.  [m_steps] is [_opt_steps] with the next time first. *)
Record mst := mkMst {
  m_cv : R; m_opt : R;           (* cv, opt_chp_now *)
  m_cons : bool; m_on : bool;    (* _emerg_cnsctv, _emerg_on *)
  m_caps : caps;
  m_prev : R;                    (* _lt_prev_opt *)
  m_num : nat; m_steps : list R
}.

(** What the controller sees: time, on-sensor, process value, set point, heat content, the
    value [_opt_chp_mod_post[num_opts, 0]] resp. the fallback (a plan entry after
    [_longterm_adj_by_soc]; [None] is NaN) and the result of the scalar optimiser. *)
Record minp := mkMinp {
  i_t : R; i_sens : R; i_pv : R; i_sp : R; i_heat : R; i_plan : option R; i_x3 : R
}.

(** 900-906: [arange(0, timeframe, opt_every)] ([ceil (tf / oe)] entries) followed by the
    timeframe. *)
Definition opt_steps (oe tf : R) : list R :=
  map (fun i => INR i * oe) (seq 0 (Z.to_nat (1 - up (- (tf / oe))))) ++ [tf].

Definition init (c : pcfg) (oe tf : R) : mst :=
  mkMst 0 0 false false (fresh_caps c) 0 0 (opt_steps oe tf).

(** 1668-1749.  The result: state, [emerg_cntrl], [thrd_step]. *)
Definition emergency (c : pcfg) (s : mst) (i : minp) : mst * bool * bool :=
  let hyst := if (c_use_hyst c && m_cons s)%bool then c_hyst c else 0 in
  let act := if c_act_le c then if Rlt_dec (i_sens i) (c_act c + hyst) then true else false
             else if Rlt_dec (c_act c - hyst) (i_sens i) then true else false in
  let fullp := if c_act_le c then if Rlt_dec (i_sens i) (full_power_val c) then true else false
               else if Rlt_dec (full_power_val c) (i_sens i) then true else false in
  let s1 :=
    if act then
      mkMst (c_smax c) (if fullp then c_smax c * 2 else c_smax c) (m_cons s) true
            (adapt (c_act_le c) (m_cons s) (i_t i) (i_heat i) (m_caps s))
            (m_prev s) (m_num s) (m_steps s)
    else s in
  let deact := if c_deact_ge c then if Rlt_dec (i_sp i) (i_pv i) then true else false
               else if Rlt_dec (i_pv i) (i_sp i) then true else false in
  let s2 :=
    if deact then
      mkMst (c_off c) (c_off c) (m_cons s1) false
            (adapt (negb (c_deact_ge c)) (m_cons s1) (i_t i) (i_heat i) (m_caps s1))
            (m_prev s1) (m_num s1) (m_steps s1)
    else s1 in
  let em := (act || deact)%bool in
  (mkMst (m_cv s2) (m_opt s2) em (m_on s2) (m_caps s2) (m_prev s2) (m_num s2) (m_steps s2),
   em, ((em && m_on s2) || negb em)%bool).

(** [_longterm_opt_pred]: only [opt_chp_now] matters here (1881-1927). *)
Definition longterm (c : pcfg) (s : mst) (i : minp) : mst :=
  let v := match i_plan i with
           | Some x => clip_w_cont (c_inc c) (c_lo c) (m_prev s) (1 / 100) x
           | None => 0           (* every comparison with NaN is false *)
           end in
  mkMst (m_cv s) v (m_cons s) (m_on s) (m_caps s) (m_prev s) (m_num s) (m_steps s).

(** [_longterm_finalize_step]. *)
Definition finalize (c : pcfg) (s : mst) (i : minp) : mst :=
  mkMst (m_cv s) (m_opt s) (m_cons s) (m_on s) (restore c (i_t i) (m_caps s)) (m_opt s)
        (S (m_num s)) (tl (m_steps s)).

(** [run_controller] up to the dependency on another controller; [None] is the IndexError of
    an empty list of optimisation times. *)
Definition run_mpc (c : pcfg) (s : mst) (i : minp) : option mst :=
  let '(s, em, third) := emergency c s i in
  match m_steps s with
  | [] => None
  | next :: _ =>
      let s := if Rle_dec next (i_t i) then
                 if em then finalize c s i else finalize c (longterm c s i) i
               else s in
      let cv :=
        if (third && (if Rlt_dec 0 (m_opt s) then true else false))%bool then
          if em then (i_x3 i + m_opt s) / 2 else (i_x3 i * 2 + m_opt s) / 3
        else if em then m_cv s else 0 in
      let cv := clip (c_smin c) (c_smax c) cv in
      let cv := if c_inv c then - cv else cv in
      Some (mkMst cv (m_opt s) (m_cons s) (m_on s) (m_caps s) (m_prev s) (m_num s) (m_steps s))
  end.

(** A simulation: one call per time step. *)
Fixpoint run_all (c : pcfg) (s : mst) (l : list minp) : option mst :=
  match l with
  | [] => Some s
  | i :: l => match run_mpc c s i with Some s => run_all c s l | None => None end
  end.
