(** Model of the cost functions of the model-predictive CHP controller.

    Code: /repo/multisim/parts/controllers.py [ModelPredCHP._kwk_zuschlag] (2635-2700),
    [_minimizer_input] (2202-2418), [_minimizer_input_scalar] (2421-2632),
    [_instandh_chp_nonflat] (2703-2781), [_eeg_umlage] (2784-2845).

    Simplifications: real arithmetic; arrays are lists; the branch [kwkg_nach_pmax = True] is
    dead code (the flag is the constant [False]) and left out; the keys of the dictionary of
    earnings become record fields. *)
From Coq Require Import Reals List.
Import ListNotations.
Open Scope R_scope.

(** A Python call result: a value or an exception. *)
Inductive res (A : Type) := Ok (a : A) | Raise.
Arguments Ok {A} a.
Arguments Raise {A}.

Definition rsum (l : list R) : R := fold_right Rplus 0 l.

Fixpoint map2 {A B C} (f : A -> B -> C) (l : list A) (m : list B) : list C :=
  match l, m with a :: l, b :: m => f a b :: map2 f l m | _, _ => [] end.

(** ** Bonus bands *)

(** 2666-2673: [kwkg_steps] ([None] is [np.inf]) and the rates in ct/kWh. *)
Definition kwkg_steps : list (option R) :=
  [Some 0; Some 50; Some 100; Some 250; Some 2000; None].
Definition kwkg_es : list R := [8; 6; 5; 44 / 10; 31 / 10].
Definition kwkg_en : list R := [4; 3; 2; 15 / 10; 1].

(** [np.diff] of a list that may end with infinity. *)
Fixpoint ediff (l : list (option R)) : list (option R) :=
  match l with
  | Some a :: ((b :: _) as r) =>
      match b with Some b => Some (b - a) | None => None end :: ediff r
  | _ => []
  end.

(** [kwkg_steps[:-1]]. *)
Definition lower_edges : list R :=
  map (fun o => match o with Some a => a | None => 0 end) (removelast kwkg_steps).

(** 2687: negative values become 0. *)
Definition pos_part (v : R) : R := if Rlt_dec v 0 then 0 else v.
(** 2691: [np.clip(v, 0, w)]. *)
Definition clip0 (v : R) (w : option R) : R :=
  let v := Rmax v 0 in match w with Some w => Rmin v w | None => v end.

(** One row of [pel_per_step] for the power [p] in kW. *)
Definition pel_per_step (p : R) : list R :=
  map2 clip0 (map (fun s => pos_part (p - s)) lower_edges) (ediff kwkg_steps).

(** One row of [kwk_einsp] / [kwk_eigen] and the row sum ([as_sum=True]). *)
Definition kwk_row (rates : list R) (p : R) : list R := map2 Rmult (pel_per_step p) rates.
Definition kwk_sum (rates : list R) (p : R) : R := rsum (kwk_row rates p).

(** The call: [pel_chp] is a float or an array.  The float is rejected by the assertion in
    2661. *)
Inductive arg := Scalar (p : R) | Array (l : list R).
Definition kwk_zuschlag (a : arg) : res (list R * list R) :=
  match a with
  | Scalar _ => Raise
  | Array l => Ok (map (kwk_sum kwkg_es) l, map (kwk_sum kwkg_en) l)
  end.

(** ** Levy and maintenance *)

Inductive consumer := Third | Own.

(** 2784-2845 for a scalar; the year 2020.  [p] is compared with thresholds in kW. *)
Definition eeg_2020 : R := 6756 / 1000.
Definition eeg_umlage (p : R) (v : consumer) : R :=
  match v with
  | Third => eeg_2020
  | Own => if Rle_dec 100 p then eeg_2020
           else if Rle_dec p 10 then 0 else eeg_2020 * (4 / 10)
  end.

(** 2703-2781 with [verfahren='ASUE'], power in kW; the array branch ends in a [raise]
    whatever the powers are. *)
Definition asue (p : R) : res R :=
  if Rle_dec 10 p then
    if Rle_dec p 100 then Ok (66626 / 10000 * Rpower p (- (1 / 4))) else Raise
  else if Rle_dec 1 p then Ok (32619 / 10000 * Rpower p (1866 / 10000))
  else Raise.
Definition instandh_nonflat (a : arg) : res (list R) :=
  match a with
  | Scalar p => match asue p with Ok c => Ok [c] | Raise => Raise end
  | Array _ => Raise
  end.

(** ** Cost function *)

Record prm := mkPrm {
  p_pel : R;           (* pel_chp_max, W *)
  p_eta : R;           (* eta_el *)
  p_lo : R; p_hi : R;  (* modrange_chp *)
  p_freq : R;          (* freq_fac *)
  p_flat : bool;       (* flat_instandh *)
  p_gas : R; p_esr : R; p_nn : R; p_eex : R; p_spz : R;
  p_awvk : R;          (* aufschlag_verkauf *)
  p_inst : R;          (* instandh_cost *)
  p_pwvk : R;          (* penalty_wvk *)
  p_ppi : R            (* penalty_pow_instandh *)
}.

(** Electric powers of one time slot. *)
Record split := mkSplit {
  s_prod : R;              (* curr_chp_pow *)
  s_buy_b : R; s_own_b : R; s_rest : R;
  s_buy_m : R; s_feed : R; s_own_m : R
}.
Definition s_buy (s : split) : R := s_buy_b s + s_buy_m s.
Definition s_own (s : split) : R := s_own_b s + s_own_m s.

(** 2294-2295: the modulations are cut in place. *)
Definition cut (q : prm) (x : R) : R :=
  let x := if Rlt_dec x (p_lo q * (6 / 10)) then 0 else x in
  if Rlt_dec (p_hi q) x then 1 else x.

(** 2297-2338, one entry of the arrays. *)
Definition split_of (q : prm) (x base user : R) : split :=
  let prod := x * p_pel q in
  let bb := base - prod in
  let buy_b := if Rlt_dec bb 0 then 0 else bb in
  let own_b := if Rlt_dec base prod then base else prod in
  let rest := prod - own_b in
  let bm := user - rest in
  let feed := if Rlt_dec bm 0 then - bm else 0 in
  let buy_m := if Rlt_dec bm 0 then 0 else bm in
  let own_m := if Rlt_dec user rest then user else rest in
  mkSplit prod buy_b own_b rest buy_m feed own_m.

(** [earnings], one entry of the arrays (2362-2408). *)
Record earn := mkEarn {
  e_gas : R; e_esr : R; e_vnn : R; e_inst : R; e_eeg : R; e_buy : R; e_resell : R;
  e_feed_kwk : R; e_feed_eex : R; e_own_kwk : R; e_own_sell : R
}.
Definition earn_sum (e : earn) : R :=
  rsum [e_gas e; e_esr e; e_vnn e; e_inst e; e_eeg e; e_buy e; e_resell e;
        e_feed_kwk e; e_feed_eex e; e_own_kwk e; e_own_sell e].

(** [x ** y] for [x >= 0], [y > 0]. *)
Definition pw (x y : R) : R := if Req_EM_T x 0 then 0 else Rpower x y.

Definition earnings (q : prm) (inst : R) (x : R) (s : split) : earn :=
  let gas_kW := s_prod s / (p_eta q * 1000) in
  let sell := p_spz q + 8 / 10 in
  let f := p_freq q in
  mkEarn
    (- gas_kW * p_gas q * f)
    (gas_kW * p_esr q * f)
    (gas_kW * p_nn q * f)
    (if p_flat q then if Req_EM_T x 0 then 0 else - p_inst q * f
     else - pw x (p_ppi q) * p_pel q / 1000 * inst * f)
    (f / 1000 * (- s_own_b s * eeg_umlage (p_pel q) Own - s_rest s * eeg_umlage (p_pel q) Third))
    (- s_buy s / 1000 * p_spz q * f)
    (s_buy s / 1000 * (sell - p_pwvk q) * f)
    (kwk_sum kwkg_es (s_feed s / 1000) * f)
    (s_feed s / 1000 * p_eex q * f)
    (kwk_sum kwkg_en (s_own s / 1000) * f)
    (s_own s / 1000 * sell * f).

(** The maintenance rate is only looked up if [flat_instandh] is false. *)
Definition inst_rate (q : prm) : res R :=
  if p_flat q then Ok 0 else asue (p_pel q / 1000).

Definition slot_earn (q : prm) (inst : R) (xbu : R * (R * R)) : earn :=
  let '(x, (b, u)) := xbu in earnings q inst x (split_of q x b u).

(** [_minimizer_input]: the array [x] after the call and the cost. *)
Definition minimizer_input (q : prm) (xs base user : list R) : res (list R * R) :=
  match inst_rate q with
  | Raise => Raise
  | Ok inst =>
      let xs := map (cut q) xs in
      Ok (xs, rsum (map (fun t => - earn_sum (slot_earn q inst t)) (combine xs (combine base user))))
  end.

(** [_minimizer_input_scalar] (2513-2632), written out as in the code. *)
Definition minimizer_scalar (q : prm) (x base user : R) : res R :=
  let prod := x * p_pel q in
  let gas_kW := prod / (p_eta q * 1000) in
  let buy_b := base - prod in
  let buy_b := if Rlt_dec buy_b 0 then 0 else buy_b in
  let own_b := if Rlt_dec base prod then base else prod in
  let rest := prod - own_b in
  let buy_m := user - rest in
  let mask := Rlt_dec buy_m 0 in
  let feed := if mask then - buy_m else 0 in
  let buy_m := if mask then 0 else buy_m in
  let own_m := if Rlt_dec user rest then user else rest in
  let buy := buy_b + buy_m in
  let own := own_b + own_m in
  let own_kwk := kwk_sum kwkg_en (own / 1000) in
  let feed_kwk := kwk_sum kwkg_es (feed / 1000) in
  let sell := p_spz q + 8 / 10 in
  let f := p_freq q in
  match (if p_flat q then Ok (if Req_EM_T x 0 then 0 else - p_inst q * f)
         else match asue (p_pel q / 1000) with
              | Ok r => Ok (- pw x (p_ppi q) * p_pel q / 1000 * r * f)
              | Raise => Raise
              end) with
  | Raise => Raise
  | Ok inst => Ok (-
      rsum [- gas_kW * p_gas q * f; gas_kW * p_esr q * f; gas_kW * p_nn q * f; inst;
            f / 1000 * (- own_b * eeg_umlage (p_pel q) Own - rest * eeg_umlage (p_pel q) Third);
            - buy / 1000 * p_spz q * f; buy / 1000 * (sell - p_pwvk q) * f;
            feed_kwk * f; feed / 1000 * p_eex q * f; own_kwk * f; own / 1000 * sell * f])
  end.
