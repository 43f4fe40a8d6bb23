(** C164: the predefined assemblies are sized for their power. *)
From Coq Require Import Reals List String Lra Lia.
From Verif Require Import MSizing.
Import ListNotations.
Open Scope R_scope.

(** Heat carried by the flow [m] of water heated from [cold] to [hot]. *)
Definition carried (m hot cold : R) : R := m * 4180 * (hot - cold).

Lemma quotient_some a b : b <> 0 -> quotient a b = Some (a / b).
Proof. intro H. unfold quotient. destruct (Req_EM_T b 0); [contradiction|reflexivity]. Qed.
Lemma quotient_zero a : quotient a 0 = None.
Proof. unfold quotient. destruct (Req_EM_T 0 0); [reflexivity|contradiction]. Qed.
Lemma limit_some u : 0 < u -> pump_limit u = Some u.
Proof. intro H. unfold pump_limit. destruct (Rlt_dec 0 u); [reflexivity|contradiction]. Qed.
Lemma limit_none u : u <= 0 -> pump_limit u = None.
Proof. intro H. unfold pump_limit. destruct (Rlt_dec 0 u); [lra|reflexivity]. Qed.
Lemma ratio_pos a b : 0 < a -> 0 < b -> 0 < a / b.
Proof. intros. apply Rmult_lt_0_compat; [assumption|now apply Rinv_0_lt_compat]. Qed.
Lemma ratio_neg a b : 0 < a -> b < 0 -> a / b < 0.
Proof.
  intros A B. assert (E : a / b = - (a / - b)) by (field; lra). rewrite E. pose proof (ratio_pos a (- b) A ltac:(lra)). lra.
Qed.

(** The pump of a CHP plant is accepted exactly if the flow temperature is above the switch-off temperature.  At full
    flow it carries off the whole thermal power as long as the return is not hotter than the switch-off temperature. *)
Theorem C164_chp : forall k off, 0 < power_el k -> 0 < p2h k ->
  (off < theta_ff k -> exists u, chp_pump k off = Some u /\ 0 < u /\
     carried u (theta_ff k) off = power_el k / p2h k /\
     (forall cold, cold <= off -> power_el k / p2h k <= carried u (theta_ff k) cold) /\
     (forall cold, off < cold -> carried u (theta_ff k) cold < power_el k / p2h k)) /\
  (theta_ff k <= off -> chp_pump k off = None).
Proof.
  intros k off P H. unfold chp_pump, chp_thermal. rewrite quotient_some by lra. cbn [bind].
  pose proof (ratio_pos _ _ P H) as Q. set (q := power_el k / p2h k) in *. clearbody q. split.
  - intro L. rewrite quotient_some by nra. cbn [bind].
    assert (U : 0 < q / ((theta_ff k - off) * 4180)) by (apply ratio_pos; nra).
    rewrite limit_some by exact U. eexists. split; [reflexivity|]. split; [exact U|].
    assert (E : carried (q / ((theta_ff k - off) * 4180)) (theta_ff k) off = q) by (unfold carried; field; lra).
    split; [exact E|]. unfold carried in *. set (u := q / ((theta_ff k - off) * 4180)) in *. clearbody u.
    split; intros c Hc; nra.
  - intro L. destruct (Req_dec (theta_ff k) off) as [->|N].
    + replace ((off - off) * 4180) with 0 by ring. now rewrite quotient_zero.
    + rewrite quotient_some by lra. cbn [bind]. apply limit_none. apply Rlt_le, ratio_neg; lra.
Qed.
Print Assumptions C164_chp.
(** Same for boilers, whose return is taken to be at most 60 degrees. *)
Theorem C164_boiler : forall pth theta, 0 < pth ->
  (60 < theta -> exists u, boiler_pump pth theta = Some u /\ 0 < u /\ carried u theta 60 = pth /\
     (forall cold, cold <= 60 -> pth <= carried u theta cold)) /\
  (theta <= 60 -> boiler_pump pth theta = None).
Proof.
  intros p th P. unfold boiler_pump. split.
  - intro L. rewrite quotient_some by lra. cbn [bind].
    assert (U : 0 < p / (4180 * (th - 60))) by (apply ratio_pos; lra).
    rewrite limit_some by exact U. eexists. split; [reflexivity|]. split; [exact U|].
    assert (E : carried (p / (4180 * (th - 60))) th 60 = p) by (unfold carried; field; lra).
    split; [exact E|]. unfold carried in *. set (u := p / (4180 * (th - 60))) in *. clearbody u. intros c Hc; nra.
  - intro L. destruct (Req_dec th 60) as [->|N].
    + replace (4180 * (60 - 60)) with 0 by ring. now rewrite quotient_zero.
    + rewrite quotient_some by lra. cbn [bind]. apply limit_none. apply Rlt_le, ratio_neg; lra.
Qed.
Print Assumptions C164_boiler.

(** Pipes grow with the pumps: the highest flow per scaled cross section is the same for all plants. *)
Theorem C164_velocity : forall k off pth theta A, 0 < power_el k -> 0 < p2h k -> off < theta_ff k -> 0 < pth -> 60 < theta -> 0 < A ->
  exists u f v g, chp_pump k off = Some u /\ chp_scale k off = Some f /\ u / (f * A) = 38700 / (4180 * (95 / 10)) / A /\
    boiler_pump pth theta = Some v /\ boiler_scale pth theta = Some g /\ v / (g * A) = 150000 / (4180 * 15) / A.
Proof.
  intros k off p th A P H L Pp T HA.
  unfold chp_pump, chp_scale, chp_thermal, boiler_pump, boiler_scale. rewrite (quotient_some (power_el k)) by lra. cbn [bind].
  pose proof (ratio_pos _ _ P H) as Q. set (q := power_el k / p2h k) in *. clearbody q.
  rewrite !quotient_some by lra. cbn [bind].
  rewrite !limit_some by (apply ratio_pos; lra).
  do 4 eexists. split; [reflexivity|]. split; [reflexivity|]. split; [field; lra|].
  split; [reflexivity|]. split; [reflexivity|]. field. lra.
Qed.
Print Assumptions C164_velocity.

(** The estimated thermal power is 5.4 percent above the power of the engine, whatever the efficiencies. *)
Theorem C164_estimate : forall k, 0 < power_el k -> 0 < eta_el k -> 0 < p2h k ->
  chp_estimate k = Some (1054 / 1000 * (power_el k / p2h k)).
Proof.
  intros k P E H. unfold chp_estimate, chp_thermal. rewrite !quotient_some by lra. cbn [bind]. f_equal. field. lra.
Qed.
Print Assumptions C164_estimate.

(** Hot water: the circulation pump moves 1.7 times the mean flow, the hot water pump more than 24 times. *)
Theorem C164_hot_water : forall m, 0 < m ->
  (exists u, hot_water_pump m = Some u /\ 24 * m < u < 25 * m) /\
  (exists u, circulation_pump m = Some u /\ 17 / 10 * m < u < 18 / 10 * m).
Proof. intros m H. unfold hot_water_pump, circulation_pump. rewrite !limit_some by lra. split; eexists; (split; [reflexivity|lra]). Qed.
Print Assumptions C164_hot_water.
(** Storage loading: both pumps can bring five times the mean power when the return is at 55 and 53 degrees, the
    pumps start within their limits. *)
Theorem C164_loading : forall hot circ ff, 0 < hot -> 0 < circ -> 55 < ff ->
  let p := mean_power hot circ in
  exists u s v t, load_max p ff = Some u /\ load_start p ff = Some s /\ store_max p = Some v /\ store_start p = Some t /\
    carried u ff 55 = 5 * p /\ carried v (60 + 15 / 100) 53 = 5 * p /\
    carried s ff 45 = p /\ carried t (60 + 15 / 100) 43 = p /\ 0 < s < u /\ 0 < t < v.
Proof.
  intros hot circ ff H C L p. assert (P : 0 < p) by (unfold p, mean_power; lra). clearbody p.
  unfold load_max, load_start, store_max, store_start. rewrite !quotient_some by lra. cbn [bind].
  rewrite !limit_some by (apply ratio_pos; lra). do 4 eexists. do 4 (split; [reflexivity|]).
  split; [unfold carried; field; lra|]. split; [unfold carried; field; lra|].
  split; [unfold carried; field; lra|]. split; [unfold carried; field; lra|]. split; [|lra].
  split; [apply ratio_pos; lra|].
  assert (E1 : p / (4180 * (ff - 45)) * (4180 * (ff - 45)) = p) by (field; lra).
  assert (E2 : p * 5 / (4180 * (ff - 55)) * (4180 * (ff - 55)) = p * 5) by (field; lra).
  pose proof (ratio_pos p (4180 * (ff - 45)) P ltac:(lra)). pose proof (ratio_pos (p * 5) (4180 * (ff - 55)) ltac:(lra) ltac:(lra)).
  set (s := p / (4180 * (ff - 45))) in *. set (u := p * 5 / (4180 * (ff - 55))) in *. clearbody s u.
  apply Rmult_lt_reg_r with (4180 * (ff - 45)); [lra|]. rewrite E1. nra.
Qed.
Print Assumptions C164_loading.
(** The loading assembly is refused for a flow temperature of up to 55 degrees. *)
Theorem C164_loading_refused : forall hot circ ff, 0 < hot -> 0 < circ -> ff <= 55 -> load_max (mean_power hot circ) ff = None.
Proof.
  intros hot circ ff H C L. assert (P : 0 < mean_power hot circ) by (unfold mean_power; lra). unfold load_max.
  destruct (Req_dec ff 55) as [->|N].
  - replace (4180 * (55 - 55)) with 0 by ring. now rewrite quotient_zero.
  - rewrite quotient_some by lra. cbn [bind]. apply limit_none. apply Rlt_le, ratio_neg; lra.
Qed.
Print Assumptions C164_loading_refused.

(** Plants built one after the other with one dictionary of settings: pumps and scales are those of plants built
    alone, the pipe only of the first or if none is given. *)
Theorem C164_again_partial : forall offs k n o,
  nth_error offs n = Some o -> (n = 0%nat \/ pipes k = None \/ pipes k = Some "DN80"%string) ->
  nth_error (build_all k offs) n = Some (fst (build_chp k o)).
Proof.
  assert (S : forall k o, pipes k = None -> build_chp k o = (fst (build_chp k o), k)).
  { intros k o E. unfold build_chp, chp_pipe. now rewrite E. }
  assert (G : forall offs k n o, nth_error offs n = Some o -> pipes k = None ->
              nth_error (build_all k offs) n = Some (fst (build_chp k o))).
  { induction offs as [|x offs IH]; intros k [|n] o E N; try discriminate; cbn [build_all]; rewrite (S k x N).
    - injection E as ->. now rewrite S.
    - cbn. now apply IH. }
  intros [|x offs] k [|n] o E H; try discriminate.
  - injection E as ->. cbn [build_all]. now destruct (build_chp k o).
  - destruct H as [H|[H|H]]; [discriminate|now apply G|].
    cbn [build_all]. unfold build_chp at 1. unfold chp_pipe. rewrite H. cbn [nth_error]. cbn [nth_error] in E.
    rewrite (G offs _ n o E) by reflexivity. unfold build_chp, chp_pipe. cbn [pipes]. rewrite H. reflexivity.
Qed.
Print Assumptions C164_again_partial.
(** Missing: any pipe.  A second plant built with the same dictionary gets DN80 instead of the given pipe. *)
Theorem C164_again_refuted : forall k off1 off2 d, 0 < power_el k -> 0 < p2h k -> off1 < theta_ff k -> off2 < theta_ff k ->
  pipes k = Some d -> d <> "DN80"%string ->
  exists a b c e, build_all k [off1; off2] = [Some (a, b, d); Some (c, e, "DN80"%string)] /\
    fst (build_chp k off2) = Some (c, e, d).
Proof.
  intros k o1 o2 d P H L1 L2 D N. unfold build_all, build_chp, chp_pipe. rewrite D. cbn [pipes].
  unfold chp_pump, chp_scale, chp_thermal. cbn [power_el p2h theta_ff].
  rewrite (quotient_some (power_el k)) by lra. cbn [bind].
  pose proof (ratio_pos _ _ P H) as Q. set (q := power_el k / p2h k) in *. clearbody q.
  rewrite !quotient_some by lra. cbn [bind]. rewrite !limit_some by (apply ratio_pos; lra). cbn [bind fst].
  do 4 eexists. split; reflexivity.
Qed.
Print Assumptions C164_again_refuted.
(** The valves of the heating circuit start further open than their limits allow, the others do not. *)
Theorem C164_start_refuted :
  Forall (fun v => snd (fst v) < snd v) heating_valves /\ Forall (fun v => fst (fst v) <= snd v <= snd (fst v)) other_valves.
Proof. split; repeat constructor; cbn; lra. Qed.
Print Assumptions C164_start_refuted.

(** Example: the default plant; its pump moves 1.09 kg/s. *)
Example C164_example : exists u, chp_pump {| power_el := 20000; eta_el := 32733 / 100000; p2h := 516796 / 1000000; theta_ff := 835 / 10; pipes := None |} 75 = Some u
  /\ 108 / 100 < u < 11 / 10.
Proof.
  unfold chp_pump, chp_thermal. cbn [power_el p2h theta_ff]. rewrite !quotient_some by lra. cbn [bind].
  rewrite quotient_some by lra. cbn [bind]. rewrite limit_some by lra. eexists. split; [reflexivity|]. lra.
Qed.
