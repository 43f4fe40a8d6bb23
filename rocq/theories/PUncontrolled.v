(** C179: a part without controller works with the value it was given. *)
From Coq Require Import Reals List Bool String Lra Lia.
From Verif Require Import MUncontrolled.
Import ListNotations.
Local Open Scope R_scope.

Lemma le_t a b : le a b = true <-> a <= b.
Proof. unfold le. destruct (Rle_dec a b); split; intros; try lra; discriminate. Qed.
Lemma lt_t a b : lt a b = true <-> a < b.
Proof. unfold lt. destruct (Rlt_dec a b); split; intros; try lra; discriminate. Qed.

(** What the user does to have a part without controller, by the messages of the code:
    [no_control=True] for pumps and valves of their own, [ctrl_required=False] for the others. *)
Definition asked (c : kind) (k : kwargs) : Prop :=
  match c with Pump | Valve3w => k_no_control k = IsTrue | _ => k_ctrl_required k = IsFalse end.
(** Start values and limits are right. *)
Definition start_ok (c : kind) (k : kwargs) : Prop :=
  exists x, k_start k = Number x /\
    match c with
    | Pump => True | PipeWithPump => 0 <= x
    | Valve3w | PipeWith3wValve | CHPPlant => 0 <= x <= 1
    | HeatedPipe => True
    end.
Definition limits_ok (k : kwargs) : Prop :=
  exists a b, k_limits k = Some (Number a, Number b) /\ 0 <= a < b.

Ltac go := repeat match goal with
  | H : le _ _ = true |- _ => apply le_t in H
  | H : lt _ _ = true |- _ => apply lt_t in H
  | H : (_ && _)%bool = true |- _ => apply andb_true_iff in H; destruct H
  | H : exists _, _ |- _ => destruct H
  | H : _ /\ _ |- _ => destruct H
  end.

(** A constant value given to a pipe with pump, a pipe with valve or a CHP plant is used, whatever
    else was given: start values, limits. *)
Theorem C179_constant : forall c k v, c = PipeWithPump \/ c = PipeWith3wValve \/ c = CHPPlant ->
  asked c k -> start_ok c k -> (c = CHPPlant -> limits_ok k) ->
  k_const_val k = Some (Number v) -> k_time_series k = None ->
  exists p, build_alone c k = Some p /\ bound p = [] /\
    cv p = match c with PipeWith3wValve => [v; 1 - v] | _ => [v] end.
Proof.
  intros c k v C A [x [X S]] L V T. unfold build_alone, init_part.
  destruct C as [ -> | [ -> | -> ] ]; cbn [asked] in A; cbv iota in S.
  - unfold init_pipe_pump, initialize_actuator. rewrite X, A, V, T. cbn [num].
    rewrite (proj2 (le_t 0 x) S). cbn. eexists. repeat split.
  - unfold init_pipe_valve, initialize_actuator. rewrite X, A, V, T. cbn [num].
    rewrite (proj2 (le_t 0 x)), (proj2 (le_t x 1)) by lra. cbn. eexists. repeat split.
  - destruct (L eq_refl) as (a & b & EL & HL). unfold init_chp, initialize_actuator.
    rewrite X, A, V, T, EL. cbn [num lim_array].
    rewrite (proj2 (le_t 0 x)), (proj2 (le_t x 1)), (proj2 (le_t 0 a)), (proj2 (lt_t a b)) by lra.
    cbn. eexists. repeat split.
Qed.
Print Assumptions C179_constant.

(** A series is bound to the flow of the pipe with pump and to the modulation of the plant (for the
    pipe with valve see C56). *)
Theorem C179_series : forall c k s, c = PipeWithPump \/ c = CHPPlant ->
  asked c k -> start_ok c k -> (c = CHPPlant -> limits_ok k) ->
  k_const_val k = None -> k_time_series k = Some s -> s_stamped s = true -> s_taken s = true ->
  exists p, build_alone c k = Some p /\
    bound p = [(match c with CHPPlant => "_power_modulation" | _ => "dm" end, 0%nat, s_id s)]%string.
Proof.
  intros c k s C A [x [X S]] L V T ST TK. unfold build_alone, init_part.
  destruct C as [ -> | -> ]; cbn [asked] in A; cbv iota in S.
  - unfold init_pipe_pump, initialize_actuator, bind. rewrite X, A, V, T, ST, TK. cbn [num].
    rewrite (proj2 (le_t 0 x) S). cbn. eexists. repeat split.
  - destruct (L eq_refl) as (a & b & EL & HL). unfold init_chp, initialize_actuator, bind.
    rewrite X, A, V, T, EL, ST, TK. cbn [num lim_array].
    rewrite (proj2 (le_t 0 x)), (proj2 (le_t x 1)), (proj2 (le_t 0 a)), (proj2 (lt_t a b)) by lra.
    cbn. eexists. repeat split.
Qed.
Print Assumptions C179_series.

(** Nothing in between: without controller these parts are only taken with exactly one of a number
    and a series. *)
Theorem C179_exactly_one : forall c k p, c = PipeWithPump \/ c = PipeWith3wValve \/ c = CHPPlant ->
  build_alone c k = Some p ->
  asked c k /\
  ((exists v, k_const_val k = Some (Number v) /\ k_time_series k = None) \/
   (exists s, k_const_val k = None /\ k_time_series k = Some s /\ bound p <> [])).
Proof.
  assert (I : forall var k p0 p, req p0 = true -> defined p0 = false ->
    initialize_actuator var k p0 = Some p -> (req p && negb (defined p))%bool = false ->
    k_ctrl_required k = IsFalse /\
    ((exists v, k_const_val k = Some (Number v) /\ k_time_series k = None) \/
     (exists s, k_const_val k = None /\ k_time_series k = Some s /\ bound p <> []))).
  { intros var k p0 p R D E F. unfold initialize_actuator in E.
    destruct (k_ctrl_required k) eqn:Q.
    - destruct (lim_array _); [|discriminate]. cbn in E. injection E as <-. cbn in F.
      rewrite R, D in F. discriminate.
    - destruct (lim_array _); [|discriminate]. cbn in E. injection E as <-. cbn in F.
      rewrite R, D in F. discriminate.
    - split; [reflexivity|]. destruct (k_const_val k) as [v|], (k_time_series k) as [s|]; try discriminate.
      + left. destruct v; try discriminate. eexists. split; reflexivity.
      + right. exists s. repeat split. unfold bind in E. destruct (_ && _)%bool; [|discriminate].
        cbn in E. injection E as <-. cbn. destruct (bound p0); discriminate.
    - injection E as <-. rewrite R, D in F. discriminate. }
  intros c k p C E. unfold build_alone in E. destruct (init_part c k) as [q|] eqn:Q; [|discriminate].
  destruct (req q && negb (defined q))%bool eqn:F; [discriminate|]. injection E as <-.
  destruct C as [ -> | [ -> | -> ] ]; cbn [init_part asked] in *.
  - unfold init_pipe_pump in Q. destruct (num _) as [x|]; [|discriminate].
    destruct (le 0 x); [|discriminate]. destruct (initialize_actuator _ _ _) as [p0|] eqn:IA; [|discriminate].
    assert (p0 = q).
    { destruct (match k_ctrl_required k with Absent => _ | _ => _ end); [|congruence].
      destruct (k_maximum_flow k) as [[]|]; congruence. }
    subst p0. apply (I _ _ _ _ (eq_refl : req (fresh [x]) = true) eq_refl IA F).
  - unfold init_pipe_valve in Q. destruct (num _) as [x|]; [|discriminate].
    destruct (_ && _)%bool; [|discriminate].
    destruct (initialize_actuator _ _ _) as [p0|] eqn:IA; [|discriminate].
    destruct (cv p0) as [|a r]; [discriminate|]. injection Q as <-.
    apply (I _ _ _ p0 (eq_refl : req (fresh [x; 1 - x]) = true) eq_refl IA F).
  - unfold init_chp in Q. destruct (lim_array _) as [[a b]|]; [|discriminate].
    destruct (num _) as [x|]; [|discriminate]. destruct (_ && _)%bool; [|discriminate].
    apply (I _ _ _ q (eq_refl : req (set_lims (a, b) (fresh [x])) = true) eq_refl Q F).
Qed.
Print Assumptions C179_exactly_one.

(** The pump: a constant flow is used; a series is bound if no constant is given. *)
Theorem C179_pump : forall k, asked Pump k -> start_ok Pump k ->
  (forall v, k_dm_const k = Some (Number v) ->
     exists p, build_alone Pump k = Some p /\ cv p = [v] /\ bound p = []) /\
  (forall s, k_dm_const k = None -> k_time_series k = Some s -> s_stamped s = true -> s_taken s = true ->
     exists p, build_alone Pump k = Some p /\ bound p = [("dm", 0%nat, s_id s)]%string).
Proof.
  intros k A [x [X _]]. cbn [asked] in A. unfold build_alone, init_part, init_pump. rewrite X, A.
  cbn [num]. split.
  - intros v V. rewrite V. cbn. eexists. repeat split.
  - intros s V T ST TK. rewrite V, T. unfold bind. rewrite ST, TK. cbn. eexists. repeat split.
Qed.
Print Assumptions C179_pump.

(** ... but a series given as the message says ([dm_given]) is dropped: the pump is taken and runs
    with its start flow, nothing is bound. *)
Theorem C179_dm_given_refuted : forall k s x, asked Pump k -> k_start k = Number x ->
  k_dm_const k = None -> k_time_series k = None -> k_dm_given k = Some s ->
  exists p, build_alone Pump k = Some p /\ cv p = [x] /\ bound p = [].
Proof.
  intros k s x A X V T G. cbn [asked] in A. unfold build_alone, init_part, init_pump.
  rewrite X, A. cbn [num]. rewrite V, T, G. cbn. eexists. repeat split.
Qed.
Print Assumptions C179_dm_given_refuted.

(** Likewise a series beside a constant flow. *)
Theorem C179_both_refuted : forall k s x v, asked Pump k -> k_start k = Number x ->
  k_dm_const k = Some (Number v) -> k_time_series k = Some s ->
  exists p, build_alone Pump k = Some p /\ cv p = [v] /\ bound p = [].
Proof.
  intros k s x v A X V T. cbn [asked] in A. unfold build_alone, init_part, init_pump.
  rewrite X, A. cbn [num]. rewrite V. cbn. eexists. repeat split.
Qed.
Print Assumptions C179_both_refuted.

(** A pump made with the arguments of the other parts, which the message of [_build_simenv] asks
    for ([ctrl_required=False]), is never taken. *)
Theorem C179_pump_message_refuted : forall k, k_no_control k <> IsTrue -> build_alone Pump k = None.
Proof.
  intros k N. unfold build_alone, init_part, init_pump. destruct (num _) as [x|]; [|reflexivity].
  destruct (k_no_control k); try contradiction; try reflexivity;
    destruct (lim_array _) as [[a b]|]; try reflexivity; destruct (lt a b); reflexivity.
Qed.
Print Assumptions C179_pump_message_refuted.

(** A three-way valve can not be had without controller, whatever is given. *)
Theorem C179_valve_refuted : forall k, build_alone Valve3w k = None.
Proof.
  intros k. unfold build_alone, init_part, init_valve. destruct (num _) as [x|]; [|reflexivity].
  destruct (_ && _)%bool; [|reflexivity].
  destruct (k_no_control k); try reflexivity.
  - destruct (lim_array _) as [[a b]|]; [|reflexivity]. destruct (_ && _)%bool; reflexivity.
  - destruct (k_const_val k), (k_val_given k); reflexivity.
  - destruct (lim_array _) as [[a b]|]; [|reflexivity]. destruct (_ && _)%bool; reflexivity.
Qed.
Print Assumptions C179_valve_refuted.

(** Nor a heated pipe. *)
Theorem C179_heater_refuted : forall k, build_alone HeatedPipe k = None.
Proof.
  intros k. unfold build_alone, init_part, init_heater. destruct (lim_array _) as [[a b]|]; [|reflexivity].
  destruct (_ && _)%bool; reflexivity.
Qed.
Print Assumptions C179_heater_refuted.

(** A constant opening is not compared with 0 and 1, as the start opening is: with 3/2 the second
    branch gets minus half of the flow. *)
Theorem C179_opening_refuted : forall v, 1 < v -> exists k p, build_alone PipeWith3wValve k = Some p /\
  start_ok PipeWith3wValve k /\ k_const_val k = Some (Number v) /\
  exists b, cv p = [v; b] /\ b < 0.
Proof.
  intros v V.
  set (k := {| k_start := Number 0; k_no_control := Absent; k_ctrl_required := IsFalse;
               k_dm_const := None; k_const_val := Some (Number v); k_dm_given := None;
               k_time_series := None; k_val_given := None; k_limits := None; k_maximum_flow := None |}).
  destruct (C179_constant PipeWith3wValve k v) as (p & B & _ & E);
    [auto|reflexivity|exists 0; split; [reflexivity|lra]|discriminate|reflexivity|reflexivity|].
  exists k, p. split; [exact B|]. split; [exists 0; split; [reflexivity|lra]|]. split; [reflexivity|].
  exists (1 - v). split; [exact E|lra].
Qed.
Print Assumptions C179_opening_refuted.

(** No part has two masters: what runs alone takes no controller, and the other way round. *)
Theorem C179_one_master : forall c k p q,
  build_alone c k = Some p -> build_controlled c k = Some q -> False.
Proof.
  intros c k p q A B.
  assert (C : req p = false \/ defined p = true).
  { unfold build_alone in A. destruct (init_part c k) as [r|]; [|discriminate].
    destruct (req r) eqn:R, (defined r) eqn:D; cbn in A; try discriminate; injection A as <-; auto. }
  assert (D : defined p = false).
  { unfold build_alone in A. unfold build_controlled in B. destruct (init_part c k) as [r|]; [|discriminate].
    destruct (defined r) eqn:D; [discriminate|]. destruct (_ && _)%bool; [discriminate|]. injection A as <-. exact D. }
  destruct C as [C|C]; [|congruence].
  assert (G : forall r, init_part c k = Some r -> req r = negb (defined r)).
  { assert (I : forall var p0 r, req p0 = negb (defined p0) -> initialize_actuator var k p0 = Some r -> req r = negb (defined r)).
    { intros var p0 r H E. unfold initialize_actuator in E. destruct (k_ctrl_required k).
      - destruct (lim_array _); [|discriminate]. injection E as <-. exact H.
      - destruct (lim_array _); [|discriminate]. injection E as <-. exact H.
      - destruct (k_const_val k) as [v|], (k_time_series k); try discriminate.
        + destruct (num v); [|discriminate]. injection E as <-. reflexivity.
        + destruct (bind _ _ _); [|discriminate]. injection E as <-. reflexivity.
      - injection E as <-. exact H. }
    intros r E. destruct c; cbn [init_part] in E.
    - unfold init_pump in E. destruct (num _) as [x|]; [|discriminate].
      destruct (k_no_control k).
      + destruct (lim_array _) as [[a b]|]; [|discriminate]. destruct (lt a b); [|discriminate]. injection E as <-. reflexivity.
      + destruct (k_dm_const k) as [v|].
        { destruct (num v); [|discriminate]. injection E as <-. reflexivity. }
        destruct (k_time_series k).
        { destruct (bind _ _ _); [|discriminate]. injection E as <-. reflexivity. }
        destruct (k_dm_given k); [|discriminate]. injection E as <-. reflexivity.
      + destruct (lim_array _) as [[a b]|]; [|discriminate]. destruct (lt a b); [|discriminate]. injection E as <-. reflexivity.
      + injection E as <-. reflexivity.
    - unfold init_pipe_pump in E. destruct (num _) as [x|]; [|discriminate]. destruct (le 0 x); [|discriminate].
      destruct (initialize_actuator _ _ _) as [p0|] eqn:IA; [|discriminate].
      assert (p0 = r).
      { destruct (match k_ctrl_required k with Absent => _ | _ => _ end); [|congruence].
        destruct (k_maximum_flow k) as [[]|]; congruence. }
      subst p0. apply (I _ _ _ (eq_refl : req (fresh [x]) = negb (defined (fresh [x]))) IA).
    - unfold init_valve in E. destruct (num _) as [x|]; [|discriminate]. destruct (_ && _)%bool; [|discriminate].
      destruct (k_no_control k).
      + destruct (lim_array _) as [[a b]|]; [|discriminate]. destruct (_ && _)%bool; [|discriminate]. injection E as <-. reflexivity.
      + destruct (k_const_val k), (k_val_given k); try discriminate. injection E as <-. reflexivity.
      + destruct (lim_array _) as [[a b]|]; [|discriminate]. destruct (_ && _)%bool; [|discriminate]. injection E as <-. reflexivity.
      + injection E as <-. reflexivity.
    - unfold init_pipe_valve in E. destruct (num _) as [x|]; [|discriminate]. destruct (_ && _)%bool; [|discriminate].
      destruct (initialize_actuator _ _ _) as [p0|] eqn:IA; [|discriminate].
      destruct (cv p0); [discriminate|]. injection E as <-.
      apply (I _ _ _ (eq_refl : req (fresh [x; 1 - x]) = negb (defined (fresh [x; 1 - x]))) IA).
    - unfold init_chp in E. destruct (lim_array _) as [[a b]|]; [|discriminate]. destruct (num _) as [x|]; [|discriminate].
      destruct (_ && _)%bool; [|discriminate].
      apply (I _ _ _ (eq_refl : req (set_lims (a, b) (fresh [x])) = negb (defined (set_lims (a, b) (fresh [x])))) E).
    - unfold init_heater in E. destruct (lim_array _) as [[a b]|]; [|discriminate].
      destruct (_ && _)%bool; [|discriminate]. injection E as <-. reflexivity. }
  unfold build_alone in A. destruct (init_part c k) as [r|] eqn:E; [|discriminate].
  specialize (G r eq_refl). destruct (req r && negb (defined r))%bool eqn:F; [discriminate|].
  injection A as <-. rewrite C, D in G. discriminate.
Qed.
Print Assumptions C179_one_master.

(** A pipe with pump and 0.3 kg/s, as in the examples of the documentation; a pump with the same
    series given under both names. *)
Definition kw0 : kwargs :=
  {| k_start := Number 0; k_no_control := Absent; k_ctrl_required := IsFalse; k_dm_const := None;
     k_const_val := Some (Number 0.3); k_dm_given := None; k_time_series := None; k_val_given := None;
     k_limits := None; k_maximum_flow := None |}.
Example pipe_pump_alone : exists p, build_alone PipeWithPump kw0 = Some p /\ bound p = [] /\ cv p = [0.3].
Proof.
  apply (C179_constant PipeWithPump kw0 0.3); auto; try reflexivity; try discriminate.
  exists 0. split; [reflexivity|lra].
Qed.
Definition ser : series := {| s_id := 7; s_series := true; s_stamped := true; s_taken := true |}.
Definition kw_given : kwargs :=
  {| k_start := Number 0; k_no_control := IsTrue; k_ctrl_required := Absent; k_dm_const := None;
     k_const_val := None; k_dm_given := Some ser; k_time_series := None; k_val_given := None;
     k_limits := None; k_maximum_flow := None |}.
Example pump_given : exists p, build_alone Pump kw_given = Some p /\ cv p = [0] /\ bound p = [].
Proof. apply (C179_dm_given_refuted kw_given ser 0); reflexivity. Qed.
Definition kw_series : kwargs :=
  {| k_start := Number 0; k_no_control := IsTrue; k_ctrl_required := Absent; k_dm_const := None;
     k_const_val := None; k_dm_given := None; k_time_series := Some ser; k_val_given := None;
     k_limits := None; k_maximum_flow := None |}.
Example pump_series : exists p, build_alone Pump kw_series = Some p /\ bound p = [("dm"%string, 0%nat, 7%nat)].
Proof.
  apply (proj2 (C179_pump kw_series eq_refl (ex_intro _ 0 (conj eq_refl I))) ser); reflexivity.
Qed.
