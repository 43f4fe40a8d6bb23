(** C45, C46 (plan part), C75: storage limits and modulation plans of the CHP optimiser. *)
From Coq Require Import Reals List Bool Arith Lra Lia.
From Verif Require Import MBC MCtrl MMpcCost MMpc LMpc.
Import ListNotations.
Open Scope R_scope.

(** ** C45: storage limits *)

(** Heat content in kWh at the end of slot [k] of the horizon that starts with slot [n]:
    content [e0] at the start, production [x j * pth] and demand [dmd (n+j)] in W in the slots
    [0 .. k], slot length [oe] seconds. *)
Definition content (e0 pth oe : R) (dmd : list R) (n : nat) (x : list R) (k : nat) : R :=
  e0 + (rsum (firstn (S k) x) * pth - rsum (firstn (S k) (skipn n dmd))) * oe / 3600000.

(** The two limits the optimiser is given for the plan [x]. *)
Definition empty_limit (e0 lo pth oe : R) (dmd : list R) (n size : nat) (x : list R) : list R :=
  before_empty (e0 - lo) (pth_fac pth oe) (horizon n size (heat_dmd_kum oe dmd)) x.
Definition full_limit (e0 hi pth oe : R) (dmd : list R) (n size : nat) (x : list R) : list R :=
  before_full (hi - e0) (pth_fac pth oe) (horizon n size (heat_dmd_kum oe dmd)) x.

(** A plan for the horizon: as long as the profile allows. *)
Definition plan_for (dmd : list R) (n size : nat) (x : list R) : Prop :=
  (n < length dmd)%nat /\ length x = Nat.min size (length dmd - n).

Lemma first_demand dmd n k d : nth_error dmd n = Some d ->
  rsum (firstn (S k) (skipn n dmd)) = d + rsum (firstn k (skipn (S n) dmd)).
Proof.
  revert dmd. induction n as [|n IH]; intros dmd E.
  - destruct dmd; [discriminate|]. cbn in E. injection E as ->. reflexivity.
  - destruct dmd as [|a dmd]; [discriminate|]. cbn [nth_error] in E.
    change (skipn (S n) (a :: dmd)) with (skipn n dmd).
    change (skipn (S (S n)) (a :: dmd)) with (skipn (S n) dmd). apply IH, E.
Qed.

(** What the limits mean: distance of the heat content to the bounds, but with the demand [d] of
    the first slot left out. *)
Theorem C45_meaning : forall e0 lo hi pth oe dmd n size x k d,
  plan_for dmd n size x -> (k < length x)%nat -> nth_error dmd n = Some d ->
  let ek := content e0 pth oe dmd n x k + d * oe / 3600000 in
  nth_error (empty_limit e0 lo pth oe dmd n size x) k = Some (ek - lo) /\
  nth_error (full_limit e0 hi pth oe dmd n size x) k = Some (hi - ek).
Proof.
  intros e0 lo hi pth oe dmd n size x k d [N LX] K D ek.
  assert (H := horizon_nth oe dmd n size k ltac:(lia) ltac:(lia)).
  unfold empty_limit, full_limit, ek, content. rewrite (first_demand dmd n k d D).
  split.
  - erewrite before_empty_nth by eassumption. f_equal. unfold pth_fac. field.
  - erewrite before_full_nth by eassumption. f_equal. unfold pth_fac. field.
Qed.

(** The two limits add up to the usable capacity at every step of every plan. *)
Theorem C45_sum : forall e0 lo hi pth oe dmd n size x k,
  plan_for dmd n size x -> (k < length x)%nat ->
  exists a b, nth_error (empty_limit e0 lo pth oe dmd n size x) k = Some a /\
    nth_error (full_limit e0 hi pth oe dmd n size x) k = Some b /\ a + b = hi - lo.
Proof.
  intros e0 lo hi pth oe dmd n size x k P K.
  destruct (nth_error dmd n) as [d|] eqn:D.
  - destruct (C45_meaning e0 lo hi pth oe dmd n size x k d P K D) as [A B].
    do 2 eexists. split; [exact A|split; [exact B|ring]].
  - destruct P as [N _]. apply nth_error_None in D. lia.
Qed.

Lemma limit_lengths e0 lo hi pth oe dmd n size x : plan_for dmd n size x ->
  length (empty_limit e0 lo pth oe dmd n size x) = length x /\
  length (full_limit e0 hi pth oe dmd n size x) = length x.
Proof.
  intros [N LX]. unfold empty_limit, full_limit.
  rewrite before_empty_length, before_full_length, horizon_length. lia.
Qed.

Lemma Forall_nth_iff (P : R -> Prop) l :
  Forall P l <-> forall k v, nth_error l k = Some v -> P v.
Proof.
  rewrite Forall_forall. split.
  - intros H k v E. apply H. eapply nth_error_In, E.
  - intros H v I. apply In_nth_error in I. destruct I as [k E]. eapply H, E.
Qed.

(** The plan meets both limits if and only if the heat content, without the demand of the first
    slot, stays in the bounds. *)
Theorem C45_limits_partial : forall e0 lo hi pth oe dmd n size x d,
  plan_for dmd n size x -> nth_error dmd n = Some d ->
  (Forall (fun v => 0 <= v) (empty_limit e0 lo pth oe dmd n size x) /\
   Forall (fun v => 0 <= v) (full_limit e0 hi pth oe dmd n size x)) <->
  (forall k, (k < length x)%nat ->
     lo <= content e0 pth oe dmd n x k + d * oe / 3600000 <= hi).
Proof.
  intros e0 lo hi pth oe dmd n size x d P D.
  destruct (limit_lengths e0 lo hi pth oe dmd n size x P) as [L1 L2].
  rewrite !Forall_nth_iff. split.
  - intros [A B] k K. destruct (C45_meaning e0 lo hi pth oe dmd n size x k d P K D) as [M1 M2].
    pose proof (A _ _ M1). pose proof (B _ _ M2). lra.
  - intro H. split; intros k v E.
    + assert (K : (k < length x)%nat) by (rewrite <- L1; apply nth_error_Some; congruence).
      destruct (C45_meaning e0 lo hi pth oe dmd n size x k d P K D) as [M1 _].
      specialize (H k K). rewrite M1 in E. injection E as <-. lra.
    + assert (K : (k < length x)%nat) by (rewrite <- L2; apply nth_error_Some; congruence).
      destruct (C45_meaning e0 lo hi pth oe dmd n size x k d P K D) as [_ M2].
      specialize (H k K). rewrite M2 in E. injection E as <-. lra.
Qed.

(** So a plan that meets both limits can run the storage empty: every plan that keeps the
    storage at its minimum, as the optimiser sees it, falls short by the demand of the first
    slot. *)
Theorem C45_limits_refuted : forall e0 lo hi pth oe dmd n size x d,
  plan_for dmd n size x -> (0 < length x)%nat -> nth_error dmd n = Some d -> 0 < d -> 0 < oe ->
  nth_error (empty_limit e0 lo pth oe dmd n size x) 0 = Some 0 ->
  lo <= hi ->
  (exists v, nth_error (full_limit e0 hi pth oe dmd n size x) 0 = Some v /\ 0 <= v) /\
  content e0 pth oe dmd n x 0 < lo.
Proof.
  intros e0 lo hi pth oe dmd n size x d P X D D0 O E LH.
  destruct (C45_meaning e0 lo hi pth oe dmd n size x 0 d P X D) as [M1 M2].
  rewrite M1 in E. injection E as E.
  assert (0 < d * oe / 3600000) by (assert (0 < d * oe) by nra; lra).
  split; [eexists; split; [exact M2|lra]|lra].
Qed.

(** 10 kWh in the storage, limits 10 and 100 kWh, 36 kW of demand in quarters of an hour, CHP
    off: allowed, although 9 kWh are missing after the first slot. *)
Example C45_case : let dmd := [36000; 0; 0] in
  empty_limit 10 10 20000 900 dmd 0 2 [0; 0] = [0; 0] /\
  full_limit 10 100 20000 900 dmd 0 2 [0; 0] = [90; 90] /\
  content 10 20000 900 dmd 0 [0; 0] 0 = 1.
Proof.
  unfold empty_limit, full_limit, before_empty, before_full, horizon, heat_dmd_kum, cumsum, content,
    pth_fac, rsum.
  cbn [cumsum_from map map2 firstn skipn hd fold_right].
  split; [|split]; repeat (f_equal; try lra).
Qed.

(** If the limits have crossed, no plan of any length meets both. *)
Theorem C45_crossed : forall e0 lo hi pth oe dmd n size x,
  plan_for dmd n size x -> (0 < length x)%nat -> hi < lo ->
  any_neg (empty_limit e0 lo pth oe dmd n size x) = true \/
  any_neg (full_limit e0 hi pth oe dmd n size x) = true.
Proof.
  intros e0 lo hi pth oe dmd n size x P X C.
  destruct (C45_sum e0 lo hi pth oe dmd n size x 0 P X) as (a & b & A & B & S).
  destruct (any_neg (empty_limit e0 lo pth oe dmd n size x)) eqn:E1; [now left|].
  destruct (any_neg (full_limit e0 hi pth oe dmd n size x)) eqn:E2; [now right|].
  apply any_neg_false in E1, E2. rewrite Forall_nth_iff in E1, E2.
  pose proof (E1 _ _ A). pose proof (E2 _ _ B). lra.
Qed.

(** ** C46: modulations of the plan *)

Definition allowed (lo hi x : R) : Prop := x = 0 \/ lo <= x <= hi.

(** The long-term result is 0 or between the lower limit and full power; values in between are
    kept; below the range the nearer one of 0 and the lower limit is chosen unless continuity is
    asked for and the plant was off. *)
Theorem C46_longterm : forall inc lo prev atol x, 0 <= lo <= 1 ->
  let r := clip_w_cont inc lo prev atol x in
  allowed lo 1 r /\
  (lo <= x <= 1 -> r = x) /\
  (1 < x -> r = 1) /\
  (x < lo -> inc = false \/ lo <= prev -> r = if Rle_dec (lo / 2) x then lo else 0) /\
  (x < lo -> inc = true -> prev < lo -> r = if Rle_dec (lo - atol) x then lo else 0).
Proof.
  intros inc lo prev atol x L. unfold clip_w_cont, allowed.
  destruct inc; destruct (Rle_dec lo prev); cbn [andb negb];
  destruct (Rle_dec lo x); try destruct (Rle_dec x 1); try destruct (Rlt_dec 1 x);
  repeat (destruct (Rle_dec _ x)); repeat split; intros; try lra;
  match goal with H : _ \/ _ |- _ => destruct H; [discriminate|lra] | H : _ = _ |- _ => discriminate H end.
Qed.

(** Hence the range is respected if full power is its upper limit, and not otherwise. *)
Theorem C46_longterm_partial : forall inc lo hi prev atol x, 0 <= lo <= 1 -> hi = 1 ->
  allowed lo hi (clip_w_cont inc lo prev atol x).
Proof. intros inc lo hi prev atol x L ->. exact (proj1 (C46_longterm inc lo prev atol x L)). Qed.

Theorem C46_longterm_refuted : forall inc lo hi prev atol x, 0 <= lo <= hi -> hi < x <= 1 ->
  ~ allowed lo hi (clip_w_cont inc lo prev atol x).
Proof.
  intros inc lo hi prev atol x L X. destruct (C46_longterm inc lo prev atol x) as (_ & K & _); [lra|].
  rewrite K by lra. unfold allowed. lra.
Qed.

(** The whole plan, as clipped for the evaluation of the storage limits: fine if the lower limit
    is at most 0.5 and not below the tolerance ... *)
Theorem C46_plan_partial : forall lo hi atol l, 0 <= atol <= lo -> lo <= 1 / 2 -> hi = 1 ->
  Forall (allowed lo hi) (clip_array lo atol l).
Proof.
  intros lo hi atol l A L ->. unfold clip_array. rewrite Forall_map.
  apply Forall_forall. intros x _. unfold clip_entry, allowed.
  destruct (Rlt_dec x (lo - atol)).
  - destruct (Rlt_dec 0 lo); [destruct (Req_EM_T 0 0)|]; destruct (Rlt_dec 1 _); lra.
  - destruct (Rlt_dec x lo); [destruct (Req_EM_T x 0)|]; destruct (Rlt_dec 1 _); lra.
Qed.

(** ... but for a lower limit above 0.5 a value slightly below it is moved to 0.5, away from the
    range, and for a lower limit of 0 a slightly negative value becomes half power. *)
Theorem C46_plan_refuted : forall lo atol x, 1 / 2 < lo <= 1 -> 0 < atol <= lo ->
  lo - atol <= x < lo -> x <> 0 ->
  ~ allowed lo 1 (clip_entry lo atol x).
Proof.
  intros lo atol x L A X N. unfold clip_entry, allowed.
  destruct (Rlt_dec x (lo - atol)); [lra|]. destruct (Rlt_dec x lo); [|lra].
  destruct (Req_EM_T x 0); [lra|]. destruct (Rlt_dec 1 (1 / 2)); lra.
Qed.

Theorem C46_negative_refuted : forall atol x, 0 < atol -> - atol <= x < 0 ->
  clip_entry 0 atol x = 1 / 2.
Proof.
  intros atol x A X. unfold clip_entry. destruct (Rlt_dec x (0 - atol)); [lra|].
  destruct (Rlt_dec x 0); [|lra]. destruct (Req_EM_T x 0); [lra|]. destruct (Rlt_dec 1 (1 / 2)); lra.
Qed.

Example C46_cases :
  clip_w_cont true (1/2) 0 (1/100) (495/1000) = 1/2 /\
  clip_w_cont true (1/2) 0 (1/100) (3/10) = 0 /\
  clip_w_cont true (1/2) 1 (1/100) (3/10) = 1/2 /\
  ~ allowed (1/2) (8/10) (clip_w_cont true (1/2) 0 (1/100) (9/10)) /\
  clip_entry (6/10) (1/100) (595/1000) = 1/2.
Proof.
  split; [|split; [|split; [|split]]].
  - destruct (C46_longterm true (1/2) 0 (1/100) (495/1000)) as (_ & _ & _ & _ & K); [lra|].
    rewrite K; [|lra|reflexivity|lra]. destruct (Rle_dec _ _); lra.
  - destruct (C46_longterm true (1/2) 0 (1/100) (3/10)) as (_ & _ & _ & _ & K); [lra|].
    rewrite K; [|lra|reflexivity|lra]. destruct (Rle_dec _ _); lra.
  - destruct (C46_longterm true (1/2) 1 (1/100) (3/10)) as (_ & _ & _ & K & _); [lra|].
    rewrite K; [|lra|lra]. destruct (Rle_dec _ _); lra.
  - apply C46_longterm_refuted; lra.
  - unfold clip_entry. destruct (Rlt_dec (595/1000) (6/10 - 1/100)); [lra|].
    destruct (Rlt_dec (595/1000) (6/10)); [|lra]. destruct (Req_EM_T (595/1000) 0); [lra|].
    destruct (Rlt_dec 1 (1/2)); lra.
Qed.

(** ** C75: adjusting the plan to the state of charge *)

(** For a plan of modulations in [0, 1] the adjustment never lowers a modulation, stays in
    [0, 1], and never makes the (clipped) plan overfill the storage. *)
Theorem C75_raises : forall lo atol empty full x r, Forall (fun v => 0 <= v <= 1) x ->
  adj_by_soc lo atol empty full x = Some r ->
  Forall2 (fun a b => a <= b /\ 0 <= b <= 1) x r /\
  (Forall (fun v => 0 <= v) (full (clip_array lo atol x)) ->
   Forall (fun v => 0 <= v) (full (clip_array lo atol r))).
Proof.
  intros lo atol empty full x r U E. destruct (adj_raised lo atol empty full x r U E) as [A B].
  split; [exact A|]. rewrite <- !any_neg_false. exact B.
Qed.

(** A plan that neither overfills nor empties the storage is kept. *)
Theorem C75_keeps : forall lo atol empty full x, Forall (fun v => 0 <= v <= 1) x ->
  Forall (fun v => 0 <= v) (empty x) ->
  adj_by_soc lo atol empty full x = Some x.
Proof.
  intros lo atol empty full x U E. apply any_neg_false in E. unfold adj_by_soc.
  destruct (any_neg (full (clip_array lo atol x))); [reflexivity|].
  cbn [scale_loop]. rewrite E. cbn [scale_loop]. rewrite E.
  destruct (any_neg (full x)); now rewrite clip01_id.
Qed.

(** An all-zero plan cannot be raised: if it runs the storage empty, the adjustment divides by
    zero (the entries become NaN and the controller switches the CHP off). *)
Theorem C75_zero_refuted : forall lo atol empty full n, (0 < n)%nat ->
  let x := repeat 0 n in
  Forall (fun v => 0 <= v) (full (clip_array lo atol x)) ->
  any_neg (empty x) = true ->
  adj_by_soc lo atol empty full x = None.
Proof.
  intros lo atol empty full n N x F E. apply any_neg_false in F. unfold adj_by_soc.
  rewrite F. cbn [scale_loop]. rewrite E.
  assert (M : lmax x = 0).
  { assert (NE : x <> []) by (unfold x; destruct n; [lia|discriminate]).
    exact (repeat_spec n 0 _ (lmax_in x NE)). }
  rewrite M. destruct (Rlt_dec 0 0); [lra|reflexivity].
Qed.

(** Two slots at a quarter of the power leave 1.5 kWh missing; raised to half power the plan
    fits. *)
Example C75_case : adj_by_soc (1/2) (1/100)
    (before_empty 0 5 [0; 4]) (before_full 100 5 [0; 4]) [1/4; 1/4] = Some [1/2; 1/2].
Proof.
  assert (C1 : clip_entry (1/2) (1/100) (1/4) = 0).
  { unfold clip_entry. destruct (Rlt_dec (1/4) _); [|lra]. destruct (Rlt_dec 0 _); [|lra].
    destruct (Req_EM_T 0 0); [|lra]. destruct (Rlt_dec 1 0); lra. }
  assert (C2 : clip_entry (1/2) (1/100) (1/2) = 1/2).
  { unfold clip_entry. destruct (Rlt_dec (1/2) (1/2 - 1/100)); [lra|].
    destruct (Rlt_dec (1/2) (1/2)); [lra|]. destruct (Rlt_dec 1 (1/2)); lra. }
  assert (F0 : any_neg (before_full 100 5 [0; 4] [0; 0]) = false).
  { apply any_neg_false. unfold before_full, cumsum. cbn [map map2 cumsum_from].
    repeat constructor; lra. }
  assert (F1 : any_neg (before_full 100 5 [0; 4] [1/2; 1/2]) = false).
  { apply any_neg_false. unfold before_full, cumsum. cbn [map map2 cumsum_from].
    repeat constructor; lra. }
  assert (E0 : any_neg (before_empty 0 5 [0; 4] [1/4; 1/4]) = true).
  { unfold before_empty, cumsum, any_neg. cbn [map map2 cumsum_from existsb].
    destruct (Rlt_dec _ 0); [reflexivity|]. destruct (Rlt_dec _ 0); [reflexivity|lra]. }
  assert (E1 : any_neg (before_empty 0 5 [0; 4] [1/2; 1/2]) = false).
  { apply any_neg_false. unfold before_empty, cumsum. cbn [map map2 cumsum_from].
    repeat constructor; lra. }
  assert (L : lmax [1/4; 1/4] = 1/4).
  { unfold lmax. cbn [fold_left]. apply Rmax_left. lra. }
  assert (S2 : sqrt (1/4) = 1/2).
  { replace (1/4) with ((1/2) * (1/2)) by lra. apply sqrt_square. lra. }
  unfold adj_by_soc. unfold clip_array at 1. cbn [map]. rewrite C1, F0.
  cbn [scale_loop]. rewrite E0, L. destruct (Rlt_dec 0 (1/4)); [|lra].
  unfold clip_array. cbn [map]. rewrite S2. replace (1/4/(1/2)) with (1/2) by lra.
  rewrite !C2. cbn [scale_loop]. rewrite E1. rewrite ?E1, F1. cbn [map].
  rewrite Rmax_left, Rmin_left by lra. reflexivity.
Qed.

Print Assumptions C45_meaning.
Print Assumptions C45_sum.
Print Assumptions C45_limits_partial.
Print Assumptions C45_limits_refuted.
Print Assumptions C45_crossed.
Print Assumptions C46_longterm.
Print Assumptions C46_longterm_partial.
Print Assumptions C46_longterm_refuted.
Print Assumptions C46_plan_partial.
Print Assumptions C46_plan_refuted.
Print Assumptions C46_negative_refuted.
Print Assumptions C75_raises.
Print Assumptions C75_keeps.
Print Assumptions C75_zero_refuted.
