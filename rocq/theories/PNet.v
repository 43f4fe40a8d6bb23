(** C10, C11 and C56: flow network, valves and connectors. *)
From Coq Require Import Reals ZArith List Bool Lra Lia Arith Permutation.
From Verif Require Import MNet SNet LNet.
Import ListNotations.
Local Open Scope R_scope.

(** C10.  If the network is in dependency order and the update completes,
    every relation holds for the final flows and all other cells (pump and
    boundary flows, split factors) keep their value. *)
Theorem C10_relations : forall net m m',
  Forall well_formed net -> dep_ordered net -> run_net net m = Some m' ->
  (forall e, In e net -> satisfies m' e)
  /\ (forall a, ~ In a (map tgt net) -> m' a = m a).
Proof. exact C10_proof. Qed.
Print Assumptions C10_relations.

(** C10.  Whenever flows exist that meet all relations, the update completes
    and these are its result: the result is the only solution and a failure
    (division by zero) means that there is none. *)
Theorem C10_only_solution : forall net m m2,
  dep_ordered net ->
  (forall e, In e net -> satisfies m2 e) ->
  (forall a, ~ In a (map tgt net) -> m2 a = m a) ->
  run_net net m = Some m2.
Proof. exact run_complete. Qed.
Print Assumptions C10_only_solution.

(** Pump 0 feeds a valve (AB at 1, A at 2, B at 3, factors at 10, 11), both
    branches meet in a connector (4, 5, 6). *)
Definition net_ex : list entry :=
  [ {| tgt := 1%nat; opid := 0; srcs := [0%nat] |};
    {| tgt := 2%nat; opid := 3; srcs := [1; 10]%nat |};
    {| tgt := 3%nat; opid := 3; srcs := [1; 11]%nat |};
    {| tgt := 4%nat; opid := 0; srcs := [2%nat] |};
    {| tgt := 5%nat; opid := 0; srcs := [3%nat] |};
    {| tgt := 6%nat; opid := -1; srcs := [4; 5]%nat |} ].

Example C10_example : forall m, m 10%nat = 1/4 -> m 11%nat = 3/4 ->
  Forall well_formed net_ex /\ dep_ordered net_ex
  /\ exists m', run_net net_ex m = Some m'
     /\ m' 2%nat = m 0%nat / 4 /\ m' 6%nat = - m 0%nat.
Proof.
  intros m A B. split; [repeat constructor|split].
  - cbn. repeat split; intros; intuition (subst; cbn in *; intuition lia).
  - eexists. split; [reflexivity|]. unfold upd; cbn. rewrite A, B. lra.
Qed.

(** C11, connectors: whichever two ports are supplied from outside, in
    whichever order and with whichever signs, inside any network. *)
Theorem C11_connector : forall net m m' d p q r pp pq pr es,
  Forall well_formed net -> dep_ordered net -> run_net net m = Some m' ->
  (p < 3 /\ q < 3 /\ r < 3 /\ p <> q /\ q <> r /\ p <> r)%nat ->
  routines (conn_routine d) [] [(p, Some pp); (q, Some pq); (r, pr)] = Some es ->
  incl es net ->
  m' (d + p)%nat = passed m' pp /\ m' (d + q)%nat = passed m' pq
  /\ m' d + m' (d + 1)%nat + m' (d + 2)%nat = 0.
Proof.
  intros net m m' d p q r pp pq pr es W D R P E I.
  exact (C11_connector_proof d p q r pp pq pr es m' P E (in_net net es m m' W D R I)).
Qed.
Print Assumptions C11_connector.

(** C11, storages and branched pipes with any number of ports: if the last
    port is computed from the others, all port flows sum to zero. *)
Theorem C11_hub : forall net m m' d n rqs r es,
  Forall well_formed net -> dep_ordered net -> run_net net m = Some m' ->
  Permutation (map fst rqs ++ [r]) (seq 0 n) ->
  routines (hub_routine d n) [] (rqs ++ [(r, None)]) = Some es ->
  incl es net -> total m' (seq d n) = 0.
Proof.
  intros net m m' d n rqs r es W D R P E I.
  exact (C11_hub_proof d n rqs r es m' P E (in_net net es m m' W D R I)).
Qed.
Print Assumptions C11_hub.

(** C11, valve: the flows of A and B are the split fractions of AB and sum
    to it. *)
Theorem C11_valve : forall net m m' d f q r pa pq pr es,
  Forall well_formed net -> dep_ordered net -> run_net net m = Some m' ->
  (q = 0 /\ r = 1 \/ q = 1 /\ r = 0)%nat ->
  routines (valve_routine d f) [] [(2%nat, Some pa); (q, pq); (r, pr)] = Some es ->
  incl es net ->
  ~ In f (map tgt net) -> ~ In (f + 1)%nat (map tgt net) ->
  m f + m (f + 1)%nat = 1 ->
  m' (d + 2)%nat = passed m' pa
  /\ m' d = m' f * m' (d + 2)%nat /\ m' (d + 1)%nat = m' (f + 1)%nat * m' (d + 2)%nat
  /\ m' d + m' (d + 1)%nat = m' (d + 2)%nat.
Proof.
  intros net m m' d f q r pa pq pr es W D R P E I F1 F2 F.
  exact (C11_valve_proof d f q r pa pq pr es m' P E (in_net net es m m' W D R I)
           (factors_kept net m m' f W D R F1 F2 F)).
Qed.
Print Assumptions C11_valve.

(** C11, split factors of the three-way valve after the initial value and any
    sequence of control values: they sum to one, port A lies within [0, 1]
    from the start, within the limits after the first control value, and
    follows control values that are within the limits. *)
Theorem C11_split_factors : forall f c cvs m,
  valve_accepts c ->
  let m1 := fold_left (fun m cv => process_cv f c cv m) cvs (set_split f (v_start c) m) in
  m1 f + m1 (f + 1)%nat = 1 /\ 0 <= m1 f <= 1
  /\ (cvs <> [] -> v_ll c <= m1 f <= v_ul c
                   /\ (v_ll c <= last cvs 0 <= v_ul c -> m1 f = last cvs 0)).
Proof. exact C11_split_proof. Qed.
Print Assumptions C11_split_factors.

(** C11, pipe with valve: whichever port is supplied from outside and in
    whichever order the others follow, if the update completes.  Missing for
    the full claim: the update does not complete for an opening of zero, see
    below. *)
Theorem C11_pipe_valve_partial : forall net m m' d f p q r pp pq pr es,
  Forall well_formed net -> dep_ordered net -> run_net net m = Some m' ->
  (p < 3 /\ q < 3 /\ r < 3 /\ p <> q /\ q <> r /\ p <> r)%nat ->
  routines (pvalve_routine d f) [] [(p, Some pp); (q, pq); (r, pr)] = Some es ->
  incl es net ->
  ~ In f (map tgt net) -> ~ In (f + 1)%nat (map tgt net) ->
  m f + m (f + 1)%nat = 1 ->
  m' (d + p)%nat = passed m' pp
  /\ m' d = - (m' f * m' (d + 2)%nat)
  /\ m' (d + 1)%nat = - (m' (f + 1)%nat * m' (d + 2)%nat)
  /\ m' d + m' (d + 1)%nat + m' (d + 2)%nat = 0.
Proof.
  intros net m m' d f p q r pp pq pr es W D R P E I F1 F2 F.
  exact (C11_pvalve_proof d f p q r pp pq pr es m' P E (in_net net es m m' W D R I)
           (factors_kept net m m' f W D R F1 F2 F)).
Qed.
Print Assumptions C11_pipe_valve_partial.

(** The code violates C11 for a pipe with valve that is supplied through
    port B: no limit is zero, as the topology analyser demands (simenv.py
    2457-2506), but an opening within the limits shuts port B and the update
    divides by zero, whatever the flows are. *)
Theorem C11_pipe_valve_zero_opening_refuted : forall d f pp par1 par2 m,
  (p_src pp < d)%nat -> (d + 2 < f)%nat ->
  exists c es cv, pvalve_accepts c /\ 0 < v_ll c /\ v_ll c <= v_start c <= v_ul c
  /\ v_ll c <= cv <= v_ul c
  /\ routines (pvalve_routine d f) [] [(1%nat, Some pp); (0%nat, par1); (2%nat, par2)]
     = Some es
  /\ Forall well_formed es /\ dep_ordered es
  /\ run_net es (process_cv f c cv m) = None.
Proof.
  intros d f pp par1 par2 m A B.
  destruct (zero_opening d f pp par1 par2 m A B) as (es & H).
  exists {| v_start := 1/2; v_ll := 1/100; v_ul := 1 |}, es, 1.
  split; [unfold pvalve_accepts; cbn; lra|]. do 3 (split; [cbn; lra|]).
  unfold process_cv. rewrite clip_id by (cbn; lra). exact H.
Qed.
Print Assumptions C11_pipe_valve_zero_opening_refuted.

(** The code violates C11 for limits given in the wrong order, which the
    pipe with valve accepts: the factor leaves both. *)
Theorem C11_pipe_valve_limits_refuted : exists c, pvalve_accepts c /\
  forall f cv m, v_ul c < cv < v_ll c ->
    ~ (v_ll c <= process_cv f c cv m f <= v_ul c).
Proof.
  exists {| v_start := 1/2; v_ll := 1; v_ul := 0 |}.
  split; [unfold pvalve_accepts; cbn; lra|].
  intros f cv m H. cbn in *. intro G. lra.
Qed.
Print Assumptions C11_pipe_valve_limits_refuted.

(** The code violates C11 before the first control value: the start opening
    is not clipped. *)
Theorem C11_start_opening_refuted : exists c, valve_accepts c /\
  forall f m, ~ (v_ll c <= set_split f (v_start c) m f <= v_ul c).
Proof.
  exists {| v_start := 0; v_ll := 1/4; v_ul := 1 |}. split.
  - unfold valve_accepts; cbn; lra.
  - intros f m. unfold set_split. rewrite upd_ne, upd_eq by lia. cbn. lra.
Qed.
Print Assumptions C11_start_opening_refuted.

(** Connector at 4 fed by 0 and by 1 (against its direction). *)
Example C11_connector_example :
  exists es, routines (conn_routine 4%nat) []
     [(2%nat, Some {| p_src := 0%nat; p_pos := true |});
      (0%nat, Some {| p_src := 1%nat; p_pos := false |}); (1%nat, None)] = Some es
  /\ Forall well_formed es /\ dep_ordered es
  /\ exists m', run_net es (fun a => INR a + 1) = Some m'
     /\ m' 6%nat = 1 /\ m' 4%nat = -2 /\ m' 5%nat = 1.
Proof.
  eexists. split; [reflexivity|]. split; [repeat constructor|]. split.
  - cbn. repeat split; intros; intuition (subst; cbn in *; intuition lia).
  - eexists. split; [reflexivity|]. unfold upd; cbn. lra.
Qed.

(** Storage with four ports at 5..8. *)
Example C11_hub_example :
  exists es, routines (hub_routine 5%nat 4%nat) []
     ([(2%nat, Some {| p_src := 0%nat; p_pos := true |});
       (0%nat, Some {| p_src := 1%nat; p_pos := false |});
       (3%nat, Some {| p_src := 2%nat; p_pos := true |})] ++ [(1%nat, None)]) = Some es
  /\ Forall well_formed es /\ dep_ordered es
  /\ exists m', run_net es (fun a => INR a + 1) = Some m' /\ m' 6%nat = -2.
Proof.
  eexists. split; [reflexivity|]. split; [repeat constructor|]. split.
  - cbn. repeat split; intros; intuition (subst; cbn in *; intuition lia).
  - eexists. split; [reflexivity|]. unfold upd; cbn. lra.
Qed.

(** Pipe with valve at 4..6 fed through port B, factors 1/4 and 3/4. *)
Example C11_pipe_valve_example :
  exists es, routines (pvalve_routine 4%nat 10%nat) []
     [(1%nat, Some {| p_src := 0%nat; p_pos := true |}); (0%nat, None); (2%nat, None)] = Some es
  /\ Forall well_formed es /\ dep_ordered es
  /\ exists m', run_net es (set_split 10%nat (1/4) (fun a => 3)) = Some m'
     /\ m' 4%nat = 1 /\ m' 5%nat = 3 /\ m' 6%nat = -4.
Proof.
  eexists. split; [reflexivity|]. split; [repeat constructor|]. split.
  - cbn. repeat split; intros; intuition (subst; cbn in *; intuition lia).
  - set (m2 := upd (upd (upd (set_split 10%nat (1/4) (fun _ => 3)) 4%nat 1) 5%nat 3) 6%nat (-4)).
    exists m2. split; [|unfold m2, upd; cbn; lra].
    apply run_complete.
    + cbn. repeat split; intros; intuition (subst; cbn in *; intuition lia).
    + intros e [<-|[<-|[<-|[]]]]; constructor; unfold m2, set_split, upd; cbn; lra.
    + intros a N. cbn in N. unfold m2. rewrite !upd_ne by (intro; subst; tauto). reflexivity.
Qed.

(** Valve: limits 1/4 and 1, control values 0, 2 and 1/2. *)
Example C11_split_example :
  let c := {| v_start := 1; v_ll := 1/4; v_ul := 1 |} in
  valve_accepts c
  /\ process_cv 7%nat c 0 (fun _ => 0) 7%nat = 1/4
  /\ process_cv 7%nat c 2 (fun _ => 0) 8%nat = 0
  /\ process_cv 7%nat c (1/2) (fun _ => 0) 8%nat = 1/2.
Proof.
  unfold valve_accepts, process_cv, set_split, upd, clip; cbn.
  repeat split; try lra;
  repeat match goal with |- context [Rlt_dec ?a ?b] => destruct (Rlt_dec a b) end; lra.
Qed.

(** C56, violated: a time series for the opening of a pipe with valve never
    reaches the split factors, whatever its values: after any number of
    boundary updates the factors are those of the start opening, and the
    series is found in a massflow cell instead. *)
Theorem C56_valve_series_refuted : forall d f c xs m,
  pvalve_accepts c -> (d <> f)%nat -> (d <> f + 1)%nat ->
  let m1 := fold_left (fun m x => pvalve_series d x m) xs (set_split f (v_start c) m) in
  m1 f = v_start c /\ m1 (f + 1)%nat = 1 - v_start c
  /\ 0 <= m1 f <= 1 /\ 0 <= m1 (f + 1)%nat <= 1
  /\ (xs <> [] -> m1 d = last xs 0).
Proof.
  intros d f c xs m PV N1 N2 m1.
  assert (G : forall xs m, let m1 := fold_left (fun m x => pvalve_series d x m) xs m in
     m1 f = m f /\ m1 (f + 1)%nat = m (f + 1)%nat).
  { induction xs0 as [|x xs0 IH]; intro m0; cbn; [tauto|].
    destruct (IH (pvalve_series d x m0)) as [I1 I2]. cbn in I1, I2. rewrite I1, I2.
    unfold pvalve_series. rewrite !upd_ne by congruence. tauto. }
  destruct (G xs (set_split f (v_start c) m)) as [G1 G2].
  unfold m1. rewrite G1, G2. unfold set_split. rewrite upd_eq, upd_ne, upd_eq by lia.
  unfold pvalve_accepts in PV.
  split; [reflexivity|split; [reflexivity|]]. split; [lra|split; [lra|]]. intro Hx.
  destruct xs as [|x0 xs0 _] using rev_ind; [congruence|].
  rewrite fold_left_app, last_last. cbn. apply upd_eq.
Qed.
Print Assumptions C56_valve_series_refuted.
