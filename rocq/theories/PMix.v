(** C19, C20, C21 and C59: mixers, splitters, pumps and the plate heat exchanger. *)
From Coq Require Import Reals List Lra Lia.
From Verif Require Import MWater MMix SMix LMix LHex.
Import ListNotations.
Local Open Scope R_scope.

(** C19 (range), as far as it holds: up to 33 degC the outlet of a mixing connector lies between
    the inlets, whichever ports these are.  Missing: warmer water, where it is false, see
    [C19_connector_refuted]. *)
Theorem C19_connector_cold_partial : forall T dm i j o,
  i <> j -> i <> o -> j <> o -> balanced dm -> 0 < at3 dm i -> 0 < at3 dm j ->
  all_in 0 33 T ->
  exists T', connector T dm = Some T' /\ between (at3 T i) (at3 T j) (at3 T' o).
Proof.
  intros T dm i j o IJ IO JO S I J W.
  destruct (connector_mix T dm i j o IJ IO JO S I J) as (T' & E & O & _).
  { intros p. pose proof (W p). lra. }
  exists T'. split; [exact E|]. rewrite O.
  apply mixT_cold_between; try assumption; apply W.
Qed.
Print Assumptions C19_connector_cold_partial.

(** C19, everywhere between 0 and 100 degC: the outlet leaves the range of the inlets by at most
    one percent; equal inlets give exactly that temperature. *)
Theorem C19_connector_band_partial : forall T dm i j o,
  i <> j -> i <> o -> j <> o -> balanced dm -> 0 < at3 dm i -> 0 < at3 dm j ->
  all_in 0 100 T ->
  exists T', connector T dm = Some T'
    /\ 99/100 * Rmin (at3 T i) (at3 T j) <= at3 T' o <= 101/100 * Rmax (at3 T i) (at3 T j)
    /\ (at3 T i = at3 T j -> at3 T' o = at3 T i).
Proof.
  intros T dm i j o IJ IO JO S I J W.
  destruct (connector_mix T dm i j o IJ IO JO S I J W) as (T' & E & O & _).
  exists T'. split; [exact E|]. rewrite O. split.
  - apply mixT_band; try assumption; apply W.
  - intros Q. rewrite <- Q. apply mixT_same; try assumption. apply W.
Qed.
Print Assumptions C19_connector_band_partial.

(** The code violates C19: for every two different inlet temperatures from 35 degC upwards there
    are flows for which the outlet is hotter than both inlets, and flows for which it is colder
    than both. *)
Theorem C19_connector_refuted : forall T1 T2 T3, 35 <= T1 -> T1 < T2 -> T2 <= 100 ->
  0 <= T3 <= 100 ->
  (exists m T', 0 < m
     /\ connector (mkTri T1 T2 T3) (mkTri m 1 (- (m + 1))) = Some T' /\ T2 < pC T')
  /\ (exists m T', 0 < m
     /\ connector (mkTri T1 T2 T3) (mkTri 1 m (- (1 + m))) = Some T' /\ pC T' < T1).
Proof.
  intros T1 T2 T3 A AB B C.
  assert (W : forall p, 0 <= at3 (mkTri T1 T2 T3) p <= 100) by (intros []; cbn; lra).
  split.
  - destruct (mixT_warm_over T1 T2 A AB B) as (m & M & L).
    destruct (connector_mix (mkTri T1 T2 T3) (mkTri m 1 (- (m + 1))) PA PB PC
                ltac:(discriminate) ltac:(discriminate) ltac:(discriminate)) as (T' & E & O & _);
      try exact W; try (unfold balanced; cbn; lra).
    exists m, T'. split; [exact M|]. split; [exact E|]. cbn in O. lra.
  - destruct (mixT_warm_under T1 T2 A AB B) as (m & M & L).
    destruct (connector_mix (mkTri T1 T2 T3) (mkTri 1 m (- (1 + m))) PA PB PC
                ltac:(discriminate) ltac:(discriminate) ltac:(discriminate)) as (T' & E & O & _);
      try exact W; try (unfold balanced; cbn; lra).
    exists m, T'. split; [exact M|]. split; [exact E|]. cbn in O. lra.
Qed.
Print Assumptions C19_connector_refuted.

(** The same for the mixing valve: the cold and one percent results ... *)
Theorem C19_valve_partial : forall TA TB TC a b, 0 < a -> 0 < b ->
  0 <= TA <= 100 -> 0 <= TB <= 100 ->
  let out := pC (valve KMix (mkTri TA TB TC) (mkTri a b (a + b))) in
  (TA <= 33 -> TB <= 33 -> between TA TB out)
  /\ 99/100 * Rmin TA TB <= out <= 101/100 * Rmax TA TB.
Proof.
  intros TA TB TC a b A B WA WB out. unfold out, valve. rewrite valve_is_mix by assumption.
  split; [intros; apply mixT_cold_between; lra|apply mixT_band; assumption].
Qed.
Print Assumptions C19_valve_partial.

(** ... and the violation in its plainest form: with branch A shut all water comes from B, and
    still the outlet is hotter than both A and B. *)
Theorem C19_valve_shut_refuted : forall TA TB TC d, 35 <= TA -> TA < TB -> TB <= 100 -> 0 < d ->
  TB < pC (valve KMix (mkTri TA TB TC) (mkTri 0 d d)).
Proof. intros. unfold valve. now apply valve_shut. Qed.
Print Assumptions C19_valve_shut_refuted.

Example C19_example : exists T', connector (mkTri 10 30 20) (mkTri 1 2 (-3)) = Some T'
  /\ 10 <= pC T' <= 30.
Proof.
  destruct (C19_connector_cold_partial (mkTri 10 30 20) (mkTri 1 2 (-3)) PA PB PC)
    as (T' & E & B); try discriminate; try (unfold balanced; cbn; lra).
  - intros []; cbn; lra.
  - exists T'. split; [exact E|]. unfold between in B. cbn in B.
    rewrite Rmin_left, Rmax_right in B by lra. exact B.
Qed.

(** C59: distance to the temperature of an exact enthalpy balance: within one percent ... *)
Theorem C59_one_percent_partial : forall T dm i j o Tx,
  i <> j -> i <> o -> j <> o -> balanced dm -> 0 < at3 dm i -> 0 < at3 dm j ->
  all_in 0 100 T -> 0 <= Tx <= 100 ->
  exact_mix (at3 dm i) (at3 T i) (at3 dm j) (at3 T j) Tx ->
  exists T', connector T dm = Some T' /\ Rabs (at3 T' o - Tx) <= 1/100 * Tx.
Proof.
  intros T dm i j o Tx IJ IO JO S I J W WX E.
  destruct (connector_mix T dm i j o IJ IO JO S I J W) as (T' & E' & O & _).
  exists T'. split; [exact E'|]. rewrite O. apply mixT_exact; try assumption; apply W.
Qed.
Print Assumptions C59_one_percent_partial.

(** ... but not within the half percent the code claims: 20 and 100 degC mixed to 99 degC are
    off by more than 0.7 percent. *)
Theorem C59_half_percent_refuted : exists m T', 0 < m /\ exact_mix m 20 1 100 99
  /\ connector (mkTri 20 100 50) (mkTri m 1 (- (m + 1))) = Some T'
  /\ 99 * (1 + 7/1000) < pC T'.
Proof.
  destruct mixT_half_percent as (m & M & E & L).
  destruct (connector_mix (mkTri 20 100 50) (mkTri m 1 (- (m + 1))) PA PB PC
              ltac:(discriminate) ltac:(discriminate) ltac:(discriminate)) as (T' & E' & O & _);
    try (unfold balanced; cbn; lra).
  - intros []; cbn; lra.
  - exists m, T'. split; [exact M|]. split; [exact E|]. split; [exact E'|]. cbn in O. lra.
Qed.
Print Assumptions C59_half_percent_refuted.

(** C20: a splitting connector hands the inlet temperature to both outlets, for every choice of
    ports; so does the splitting valve. *)
Theorem C20_connector_split : forall T dm i j o,
  i <> j -> i <> o -> j <> o -> balanced dm -> at3 dm i < 0 -> at3 dm j < 0 ->
  exists T', connector T dm = Some T' /\ at3 T' i = at3 T o /\ at3 T' j = at3 T o
    /\ between (at3 T i) (at3 T j) (at3 T' o).
Proof.
  intros T dm i j o IJ IO JO S I J.
  destruct (connector_split T dm i j o IJ IO JO S I J) as (T' & E & X & Y & Z).
  exists T'. repeat split; try assumption; rewrite Z;
    [apply Rle_trans with (Rmin (at3 T i) (at3 T j)) | ];
    unfold Rmin, Rmax; destruct (Rle_dec (at3 T i) (at3 T j)); lra.
Qed.
Print Assumptions C20_connector_split.

(** With one branch idle the outlet carries the inlet temperature. *)
Theorem C20_connector_through : forall T dm i z o,
  i <> z -> i <> o -> z <> o -> balanced dm -> 0 < at3 dm i -> at3 dm z = 0 ->
  exists T', connector T dm = Some T' /\ at3 T' o = at3 T i.
Proof.
  intros T dm i z o IJ IO JO S I J.
  destruct (connector_through T dm i z o IJ IO JO S I J) as (T' & E & X & _).
  exists T'. now split.
Qed.
Print Assumptions C20_connector_through.

Theorem C20_valve_split : forall T dm,
  let T' := valve KSplit T dm in
  pA T' = pC T /\ pB T' = pC T /\ between (pA T) (pB T) (pC T').
Proof.
  intros T dm. cbn. repeat split; unfold Rmin, Rmax; destruct (Rle_dec (pA T) (pB T)); lra.
Qed.
Print Assumptions C20_valve_split.

(** A pump exchanges the temperatures of its two ports. *)
Theorem C20_pump : forall ports a b, (a < length ports)%nat -> (b < length ports)%nat ->
  pump ports [a; b] = Some [nth b ports 0; nth a ports 0].
Proof. exact pump_swap. Qed.
Print Assumptions C20_pump.

(** Whatever the flows of a connector are, unless it mixes: nothing leaves the range of the
    connected temperatures, in any number of steps with any (changing) flows. *)
Fixpoint conn_steps (T : tri R) (dms : list (tri R)) : option (tri R) :=
  match dms with
  | [] => Some T
  | dm :: r => match connector T dm with Some T' => conn_steps T' r | None => None end
  end.
Theorem C20_range : forall dms T lo hi,
  Forall (fun dm => balanced dm /\ forall i j, i <> j -> ~ (0 < at3 dm i /\ 0 < at3 dm j)) dms ->
  all_in lo hi T ->
  exists T', conn_steps T dms = Some T' /\ all_in lo hi T'.
Proof.
  induction dms as [|dm r IH]; cbn [conn_steps]; intros T lo hi F W; [exists T; auto|].
  inversion F as [|? ? [S NM] F']; subst.
  destruct (connector_range T dm lo hi S NM W) as (T' & E & W'). rewrite E.
  now apply IH.
Qed.
Print Assumptions C20_range.

Example C20_example : pump [10; 20; 30; 40] [3; 1]%nat = Some [20; 40]
  /\ exists T', connector (mkTri 10 30 50) (mkTri (-1) (-2) 3) = Some T' /\ pA T' = 50 /\ pB T' = 50.
Proof.
  split; [reflexivity|].
  destruct (C20_connector_split (mkTri 10 30 50) (mkTri (-1) (-2) 3) PA PB PC) as (T' & E & A & B & _);
    try discriminate; try (unfold balanced; cbn; lra).
  exists T'. now repeat split.
Qed.

(** C21: first and second law of the plate heat exchanger for every geometry, flow directions and
    water temperatures.  Left out is one value of the exponent, see [C21_edge_refuted]. *)
Theorem C21_laws_partial : forall g P dm0 dm1,
  hexgeo_ok g -> hex_water P -> dm0 <> 0 -> dm1 <> 0 -> hex_expo g P dm0 dm1 <> 100 ->
  let P' := platehex g P dm0 dm1 in
  let hot := sup_in dm0 P in let cold := dmd_in dm1 P in
  cap_sup P dm0 * (hot - sup_out dm0 P') = cap_dmd P dm1 * (dmd_out dm1 P' - cold)
  /\ between hot cold (sup_out dm0 P') /\ between hot cold (dmd_out dm1 P')
  /\ (cold < hot -> sup_out dm0 P' < hot /\ cold < dmd_out dm1 P')
  /\ (hot < cold -> hot < sup_out dm0 P' /\ dmd_out dm1 P' < cold).
Proof. exact hex_laws. Qed.
Print Assumptions C21_laws_partial.

(** The heat flow is that of an ideal counter-flow exchanger (logarithmic mean temperature
    difference) with the conductance computed from both film coefficients and the plate. *)
Theorem C21_counterflow : forall g P dm0 dm1,
  hexgeo_ok g -> hex_water P -> dm0 <> 0 -> dm1 <> 0 ->
  hex_expo g P dm0 dm1 < 100 -> sup_in dm0 P <> dmd_in dm1 P ->
  let P' := platehex g P dm0 dm1 in
  let hot := sup_in dm0 P in let cold := dmd_in dm1 P in
  0 < hex_ua g P dm0 dm1
  /\ lmtd_law (hex_ua g P dm0 dm1) (cap_sup P dm0 * (hot - sup_out dm0 P'))
           (hot - dmd_out dm1 P') (sup_out dm0 P' - cold).
Proof.
  intros. split; [now apply hex_ua_pos|]. now apply hex_lmtd.
Qed.
Print Assumptions C21_counterflow.

(** Beyond the cut-off the supply effectiveness is off by less than exp(-100). *)
Theorem C21_cutoff : forall Rs N, 0 < N -> 100 < (Rs - 1) * N ->
  0 <= hex_P Rs N - (1 - exp ((Rs - 1) * N)) / (1 - Rs * exp ((Rs - 1) * N)) <= exp (-100).
Proof. intros. now apply hex_P_cut. Qed.
Print Assumptions C21_cutoff.

(** Without flow on a side nothing is exchanged. *)
Theorem C21_idle : forall g P dm0 dm1, dm0 = 0 \/ dm1 = 0 ->
  let P' := platehex g P dm0 dm1 in
  (dm0 <> 0 -> sup_out dm0 P' = sup_in dm0 P)
  /\ (dm1 <> 0 -> dmd_out dm1 P' = dmd_in dm1 P)
  /\ (dm0 = 0 -> sup_in dm0 P' = sup_in dm0 P /\ sup_out dm0 P' = sup_out dm0 P)
  /\ (dm1 = 0 -> dmd_in dm1 P' = dmd_in dm1 P /\ dmd_out dm1 P' = dmd_out dm1 P).
Proof. exact hex_idle. Qed.
Print Assumptions C21_idle.

(** The code violates C21 on the edge between its branches: with an exponent of exactly 100 the
    demand outlet is hotter than the supply inlet, and for all other dimensions, flows and
    temperatures (supply side with the larger capacity flow) some plate area leads there. *)
Theorem C21_edge_refuted : forall g P dm0 dm1,
  hexgeo_ok g -> hex_water P -> dm0 <> 0 -> dm1 <> 0 ->
  cap_dmd P dm1 < cap_sup P dm0 -> dmd_in dm1 P < sup_in dm0 P ->
  exists A, 0 < A /\ hexgeo_ok (with_area g A)
    /\ sup_in dm0 P < dmd_out dm1 (platehex (with_area g A) P dm0 dm1).
Proof.
  intros g P dm0 dm1 G W Z0 Z1 C L.
  destruct (hex_edge_reached g P dm0 dm1 G W Z0 Z1 C) as (A & A0 & E).
  exists A. pose proof (with_area_ok g A G A0) as G'. split; [exact A0|]. split; [exact G'|].
  now apply hex_edge_violates.
Qed.
Print Assumptions C21_edge_refuted.

(** An exchanger with 21 plates, 60 degC against 20 degC. *)
Definition ex_hex : hexgeo :=
  {| hg_A_plate := 1/20; hg_A_chan := 1/5000; hg_dh := 1/250; hg_s := 1/2000; hg_x := 1/4;
     hg_lam := 15; hg_numA := 19; hg_nsup := 10; hg_ndmd := 10; hg_corr := 0 |}.
Definition ex_hexT : hexT := {| si := 60; so := 40; di := 20; do := 35 |}.
Example C21_example : hexgeo_ok ex_hex /\ hex_water ex_hexT
  /\ (hex_expo ex_hex ex_hexT (1/10) (1/5) < 100)
  /\ cap_sup ex_hexT (1/10) < cap_dmd ex_hexT (1/5)
  /\ cap_dmd ex_hexT (1/10) < cap_sup ex_hexT (1/5).
Proof.
  assert (G : hexgeo_ok ex_hex) by (unfold hexgeo_ok, ex_hex; cbn; repeat split; lra).
  assert (W : hex_water ex_hexT) by (unfold hex_water, ex_hexT; cbn; lra).
  split; [exact G|]. split; [exact W|].
  pose proof (cp_tight ((60 + 40) / 2) ltac:(lra)).
  pose proof (cp_tight ((20 + 35) / 2) ltac:(lra)).
  assert (K : cap_sup ex_hexT (1/10) < cap_dmd ex_hexT (1/5)
              /\ cap_dmd ex_hexT (1/10) < cap_sup ex_hexT (1/5)).
  { unfold cap_sup, cap_dmd, ex_hexT; cbn [si so di do]. rewrite !Rabs_right by lra. lra. }
  split; [|exact K].
  destruct K as [K _]. unfold hex_expo.
  pose proof (hex_ua_pos ex_hex ex_hexT (1/10) (1/5) G W ltac:(lra) ltac:(lra)) as U.
  destruct (cap_pos ex_hexT (1/10) W ltac:(lra)) as [Cs _].
  assert (cap_sup ex_hexT (1/10) / cap_dmd ex_hexT (1/5) < 1) by (apply div_lt_iff; lra).
  assert (0 < hex_ua ex_hex ex_hexT (1/10) (1/5) / cap_sup ex_hexT (1/10))
    by (apply Rdiv_lt_0_compat; lra).
  assert (0 < (1 - cap_sup ex_hexT (1/10) / cap_dmd ex_hexT (1/5))
              * (hex_ua ex_hex ex_hexT (1/10) (1/5) / cap_sup ex_hexT (1/10)))
    by (apply Rmult_lt_0_compat; lra).
  lra.
Qed.
