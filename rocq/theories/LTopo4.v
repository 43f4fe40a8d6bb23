(** Proofs about the topology analyser: balances of single parts, limits. *)
From Coq Require Import Reals ZArith List Bool Lra Lia Arith FunctionalExtensionality Permutation.
From Verif Require Import MNet SNet LNet MTopo STopo LTopo LTopo2 LTopo3.
Import ListNotations.
Local Open Scope nat_scope.

(** Flow in cell [k] and split factor [k] of part [p]. *)
Definition fl (N : design) (m : mem) (p k : nat) : R := m (dcell N p + k).
Definition sf (N : design) (m : mem) (p k : nat) : R := m (fcell N p + k).

Record balanced (N : design) (st : topo) (m : mem) (p : nat) : Prop := {
  bal_conn : kd N p = KConn -> (forall i, i < 3 -> is_solved st (p, i) = true) ->
    (fl N m p 0 + fl N m p 1 + fl N m p 2 = 0)%R;
  bal_valve : forall b i, kd N p = KValve b -> i < 2 -> is_solved st (p, i) = true ->
    (fl N m p i = sf N m p i * fl N m p 2)%R;
  bal_pv : forall i, kd N p = KPValve -> i < 2 -> is_solved st (p, i) = true ->
    is_solved st (p, 2) = true -> (fl N m p i = - (sf N m p i * fl N m p 2))%R;
  bal_pv2 : kd N p = KPValve -> is_solved st (p, 0) = true -> is_solved st (p, 1) = true ->
    (fl N m p 1 * sf N m p 0 = fl N m p 0 * sf N m p 1)%R;
  bal_hub : forall b n i, kd N p = KHub b n -> i < n -> link N (p, i) = None ->
    is_solved st (p, i) = true ->
    (forall k, k < n -> is_solved st (p, k) = true)
    /\ fold_right Rplus 0%R (map (fl N m p) (seq 0 n)) = 0%R }.

Lemma conn_sum_sat N (m : mem) p i : i < 3 ->
  satisfies m {| tgt := dcell N p + i; opid := -1;
                 srcs := map (Nat.add (dcell N p)) (filter (fun q => negb (q =? i)) [0; 1; 2]) |} ->
  (fl N m p 0 + fl N m p 1 + fl N m p 2 = 0)%R.
Proof.
  intros Hi S. unfold fl. destruct i as [|[|[|]]]; try lia; cbn [filter Nat.eqb negb map] in S;
    inversion S; subst; unfold total in *; cbn [map fold_right] in *; lra.
Qed.

Lemma sat_neg_inv (m : mem) t l : satisfies m {| tgt := t; opid := -1; srcs := l |} ->
  (m t + total m l = 0)%R.
Proof. intro S. inversion S. assumption. Qed.

Lemma two_of_three (l : list nat) i0 : NoDup l -> (forall i, In i l -> i < 3) -> i0 < 3 ->
  ~ In i0 l -> (forall i, i < 3 -> i <> i0 -> In i l) -> length l = 2.
Proof.
  intros ND Hb Hi Ni Ha.
  assert (P : Permutation (i0 :: l) (seq 0 3)).
  { apply NoDup_Permutation; [now constructor|apply seq_NoDup|].
    intro k. rewrite in_seq. split.
    - intros [<-|Hk]; [lia|]. specialize (Hb k Hk). lia.
    - intro Hk. destruct (Nat.eq_dec k i0); [now left|right; apply Ha; lia]. }
  apply Permutation_length in P. cbn in P. lia.
Qed.

Lemma balanced_step N st st' : buildable N -> inv N st -> step N st st' ->
  (forall m, all_sat m (out st) -> forall p, p < nparts N -> balanced N st m p) ->
  forall m, all_sat m (out st') -> forall p, p < nparts N -> balanced N st' m p.
Proof.
  intros B I S IH m Sat p Hp.
  destruct (step_shape N st st' B (i_wf N st I) (i_valve N st I) S) as (x & a & V & U & M & -> & Sh).
  clear S. set (st' := record st x a) in *.
  assert (New : forall z, is_solved st' z = true -> is_solved st z = true \/ z = x)
    by (intros z Hz; apply record_solved in Hz; auto).
  assert (Mono : forall z, is_solved st z = true -> is_solved st' z = true)
    by (intros z Hz; apply record_solved; auto).
  assert (Sat0 : all_sat m (out st)).
  { intros e He. apply Sat. unfold st', record. cbn [out]. apply in_app_iff. now left. }
  assert (Sat1 : forall e, a_out a = [e] -> satisfies m e).
  { intros e He. apply Sat. unfold st', record. cbn [out]. apply in_app_iff. right. rewrite He. now left. }
  specialize (IH m Sat0 p Hp).
  destruct (Nat.eq_dec p (fst x)) as [E|Ne].
  2:{ assert (Same : forall i, is_solved st' (p, i) = true -> is_solved st (p, i) = true).
      { intros i Hi. destruct (New _ Hi) as [|Hx]; [assumption|]. subst x. cbn in Ne. congruence. }
      destruct IH as [A1 A2 A3 A4 A5]. constructor.
      - intros K H. apply A1; auto.
      - intros b i K Hi H. apply (A2 b i); auto.
      - intros i K Hi H H2. apply (A3 i); auto.
      - intros K H H2. apply A4; auto.
      - intros b n i K Hi L H. destruct (A5 b n i K Hi L (Same _ H)) as [A6 A7].
        split; [intros; apply Mono; auto|assumption]. }
  subst p. destruct x as [p i0]. cbn [fst] in *.
  destruct V as [_ V2]. cbn in V2.
  assert (Old : forall i, is_solved st' (p, i) = true -> i <> i0 -> is_solved st (p, i) = true).
  { intros i Hi Ni. destruct (New _ Hi) as [|Hx]; [assumption|congruence]. }
  destruct (i_wf N st I p) as [ND Hb].
  inversion Sh as [K'|z Z1 Z2 Z3 Z4 K'|z b Z1 Z2 Z3 Z4 K'|y K' Nil L Vy Sy P|y K' L Vy Sy Fr Vv Cc Pv Ea
        |K' H' Ea|b K' H' H2 Ea|K' H' H2 Ea|s K' H' H1 H2 Ea|s K' H' H1 H2 H3 Ea|b n K' H' Ea];
    cbn [fst snd] in *; subst a;
    [|destruct K' as [K'|[? K']]| | | | | | | | |];
    try (constructor; intros; try congruence; fail).
  - (* copy of a connected port *)
    constructor.
    + intros K H. exfalso. apply (Cc K). rewrite K in V2, Hb. cbn in V2, Hb.
      apply (two_of_three _ i0); auto; [now apply unsolved_in|].
      intros i Hi Ni. apply solved_in. apply Old; auto.
    + intros b i K Hi H. rewrite (Vv b K) in Old. apply (bal_valve N st m p IH b i K Hi).
      apply Old; [assumption|lia].
    + intros i K Hi H H2. specialize (Pv K). exfalso.
      destruct (Nat.eq_dec i i0) as [->|Ni].
      * apply Old in H2; [|lia]. apply solved_in in H2. rewrite Pv in H2. destruct H2.
      * apply Old in H; [|lia]. apply solved_in in H. rewrite Pv in H. destruct H.
    + intros K H H2. specialize (Pv K). exfalso.
      destruct (Nat.eq_dec 0 i0) as [<-|Ni].
      * apply Old in H2; [|lia]. apply solved_in in H2. rewrite Pv in H2. destruct H2.
      * apply Old in H; [|lia]. apply solved_in in H. rewrite Pv in H. destruct H.
    + intros b n i K Hi Li H. destruct (Nat.eq_dec i i0) as [->|Ni]; [congruence|].
      destruct (bal_hub N st m p IH b n i K Hi Li (Old i H Ni)) as [A6 A7].
      split; [auto|assumption].
  - (* connector *)
    constructor; try congruence. intros _ _.
    apply (conn_sum_sat N m p i0); [now rewrite K' in V2|].
    rewrite <- (own_flat N p i0) by (now rewrite K'). now apply Sat1.
  - (* valve *)
    constructor; try congruence. intros b' i K Hi H.
    destruct (Nat.eq_dec i i0) as [->|Ni]; [|apply (bal_valve N st m p IH b' i K Hi); auto].
    specialize (Sat1 _ eq_refl). rewrite own_flat in Sat1 by (now rewrite K').
    inversion Sat1; subst. unfold fl, sf. rewrite Rmult_comm. assumption.
  - (* valve pipe, branch from AB *)
    assert (E0 : (fl N m p i0 = - (sf N m p i0 * fl N m p 2))%R).
    { specialize (Sat1 _ eq_refl). rewrite own_flat in Sat1 by (now rewrite K').
      inversion Sat1; subst. unfold fl, sf. lra. }
    assert (E1 : forall i, i < 2 -> is_solved st' (p, i) = true ->
                 (fl N m p i = - (sf N m p i * fl N m p 2))%R).
    { intros i Hi H. destruct (Nat.eq_dec i i0) as [->|Ni]; [assumption|].
      apply (bal_pv N st m p IH i); auto. }
    constructor; try congruence; [intros; now apply E1|].
    intros K H H3. rewrite (E1 1), (E1 0) by (auto; lia). ring.
  - (* valve pipe, AB from a branch *)
    assert (Nz : (sf N m p s <> 0)%R /\ (fl N m p 2 * sf N m p s + fl N m p s = 0)%R).
    { specialize (Sat1 _ eq_refl). rewrite own_flat in Sat1 by (now rewrite K').
      inversion Sat1; subst. unfold fl, sf. split; assumption. }
    destruct Nz as [Nz Es]. subst i0.
    constructor; try congruence.
    + intros i K Hi H _. apply Old in H; [|lia].
      destruct (Nat.eq_dec i s) as [->|Ni]; [lra|].
      assert (X : (fl N m p i * sf N m p s = fl N m p s * sf N m p i)%R).
      { destruct i as [|[|]], s as [|[|]]; try lia.
        - symmetry. rewrite (bal_pv2 N st m p IH K) by assumption. ring.
        - apply (bal_pv2 N st m p IH K); assumption. }
      apply (Rmult_eq_reg_r (sf N m p s)); [|assumption]. rewrite X.
      replace (fl N m p s) with (- (fl N m p 2 * sf N m p s))%R by lra. ring.
    + intros K H H3. apply (bal_pv2 N st m p IH K); apply Old; auto.
  - (* valve pipe, branch from the other branch *)
    assert (N2 : is_solved st' (p, 2) = true -> is_solved st (p, 2) = true)
      by (intro; apply Old; [assumption|lia]).
    assert (Nz : (sf N m p s <> 0)%R
                 /\ (fl N m p i0 * sf N m p s = fl N m p s * sf N m p i0)%R).
    { specialize (Sat1 _ eq_refl). rewrite own_flat in Sat1 by (now rewrite K').
      inversion Sat1; subst. unfold fl, sf. split; assumption. }
    destruct Nz as [Nz Es].
    constructor; try congruence.
    + intros i K Hi H H4. specialize (N2 H4).
      pose proof (bal_pv N st m p IH s K H1 H3 N2) as Ess.
      destruct (Nat.eq_dec i i0) as [->|Ni].
      * apply (Rmult_eq_reg_r (sf N m p s)); [|assumption]. rewrite Es, Ess. ring.
      * assert (i = s) as -> by lia. assumption.
    + intros K _ _. destruct i0 as [|[|]], s as [|[|]]; try lia.
      * symmetry. assumption.
      * assumption.
  - (* hub closed by its own sum *)
    constructor; try congruence. intros b' n' i K Hi L H.
    assert (n' = n) as -> by congruence.
    assert (P : Permutation (i0 :: solved st p) (seq 0 n)).
    { apply (hub_perm N st p i0 b n); auto; [apply I|now rewrite K' in V2]. }
    split.
    + intros k Hk. apply record_solved; [assumption|].
      assert (Ik : In k (i0 :: solved st p))
        by (apply (Permutation_in _ (Permutation_sym P)); apply in_seq; lia).
      destruct Ik as [->|Ik]; [now right|left; now apply solved_in].
    + rewrite <- (fold_Rplus_perm _ _ _ P). cbn [map fold_right].
      specialize (Sat1 _ eq_refl). rewrite own_flat in Sat1 by (now rewrite K').
      apply sat_neg_inv in Sat1. unfold total in Sat1. rewrite map_map in Sat1. exact Sat1.
Qed.

Lemma balanced_steps N st st' : buildable N -> inv N st -> steps N st st' ->
  (forall m, all_sat m (out st) -> forall p, p < nparts N -> balanced N st m p) ->
  forall m, all_sat m (out st') -> forall p, p < nparts N -> balanced N st' m p.
Proof.
  intros B I S. revert I. induction S as [|a b c H1 H2 IH]; [tauto|].
  intros I H. apply IH; [eapply inv_step; eauto|]. eapply balanced_step; eauto.
Qed.

Lemma balanced_start N m p : balanced N (start N) m p.
Proof.
  constructor.
  - intros K H. specialize (H 0 ltac:(lia)). unfold is_solved, start in H. cbn in H.
    rewrite K in H. discriminate.
  - intros b i K Hi H. unfold is_solved, start in H. cbn in H. rewrite K in H. discriminate.
  - intros i K Hi H. unfold is_solved, start in H. cbn in H. rewrite K in H. discriminate.
  - intros K H. unfold is_solved, start in H. cbn in H. rewrite K in H. discriminate.
  - intros b n i K Hi L H. unfold is_solved, start in H. cbn in H. rewrite K in H. discriminate.
Qed.

(** ** Limits other than zero do not matter *)
Definition without_limits (N : design) : design :=
  {| kd := kd N; nparts := nparts N; link := link N; dcell := dcell N; fcell := fcell N;
     lims := fun _ => None; numeric := numeric N; external := external N |}.

Definition limits_nonzero (N : design) : Prop :=
  forall p l u, lims N p = Some (l, u) -> l <> 0%R /\ u <> 0%R.

Lemma limits_ok_nonzero N p a : limits_nonzero N ->
  limits_ok N p a = limits_ok (without_limits N) p a.
Proof.
  intro H. unfold limits_ok. destruct (existsb _ _); [|reflexivity]. cbn.
  destruct (lims N p) as [[l u]|] eqn:E; [|reflexivity]. destruct (H p l u E) as [H1 H2].
  destruct (Req_EM_T l 0); [contradiction|]. now destruct (Req_EM_T u 0).
Qed.

Lemma loop_limits N root sub p par ch go go' : limits_nonzero N ->
  (forall q x j sd st, go q x j sd st = go' q x j sd st) ->
  forall l sd st, ports_loop go N root sub p par ch l sd st
                  = ports_loop go' (without_limits N) root sub p par ch l sd st.
Proof.
  intros H G. induction l as [|i r IH]; intros sd st; cbn [ports_loop]; [reflexivity|].
  rewrite !IH. change (kd (without_limits N) p) with (kd N p).
  change (ask (without_limits N)) with (ask N).
  destruct (is_solved st (p, i)); [reflexivity|].
  destruct (skipped (kd N p) ch i); [reflexivity|].
  destruct (ask N _ _ _ _ _) as [a|]; [|reflexivity].
  change (breaks (without_limits N)) with (breaks N).
  destruct (match par with Some _ => _ | None => _ end); [reflexivity|].
  rewrite (limits_ok_nonzero N p a H).
  destruct (negb _); [reflexivity|].
  change (link (without_limits N)) with (link N).
  destruct (link N (p, i)) as [[q j]|]; [|apply IH].
  change (is_pump (without_limits N)) with (is_pump N).
  change (in_hydr (without_limits N)) with (in_hydr N).
  rewrite G, IH. destruct (is_solved _ (q, j)); [reflexivity|].
  destruct (_ && _)%bool; [reflexivity|].
  destruct (in_hydr _ _ _); [|reflexivity].
  destruct (go' q (p, i) j _ _); try reflexivity. apply IH.
Qed.

Lemma recurse_limits N : limits_nonzero N -> forall fuel root sub p par next sd st,
  recurse fuel N root sub p par next sd st
  = recurse fuel (without_limits N) root sub p par next sd st.
Proof.
  intro H. induction fuel as [|fuel IH]; intros; cbn [recurse]; [reflexivity|].
  change (in_hydr (without_limits N)) with (in_hydr N).
  destruct (in_hydr N st p); [|reflexivity].
  apply loop_limits; auto.
Qed.

Lemma topology_limits N sched : limits_nonzero N ->
  topology N sched = topology (without_limits N) sched.
Proof.
  intro H. unfold topology.
  assert (E1 : pump_nets N = pump_nets (without_limits N)).
  { unfold pump_nets. f_equal. extensionality r. extensionality p. f_equal. extensionality st.
    change (is_pump (without_limits N)) with (is_pump N).
    destruct (is_pump N p); [|reflexivity]. apply (recurse_limits N H). }
  assert (E2 : forall st, sub_nets N sched st = sub_nets (without_limits N) sched st).
  { intro st0. unfold sub_nets. f_equal. extensionality r. extensionality p. f_equal.
    extensionality st. change (candidate (without_limits N)) with (candidate N).
    destruct (candidate N st p); [|reflexivity]. apply (recurse_limits N H). }
  rewrite E1. destruct (pump_nets (without_limits N)); cbn [bind]; [|reflexivity|reflexivity].
  rewrite E2. reflexivity.
Qed.
