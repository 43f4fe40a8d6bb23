(** C178: after a reset, pumps and valves start again with the flows and openings they were
    given. *)
From Coq Require Import Reals ZArith List Bool Lra Lia Arith.
From Verif Require Import MNet SNet LNet MTopo STopo LTopo LTopo2 LTopo5 LTopo6 MFlowReset PTopo.
Import ListNotations.
Local Open Scope nat_scope.

(** ** Cells written by a reset *)
Lemma clear_in d n : forall m a, d <= a < d + n -> clear d n m a = 0%R.
Proof.
  unfold clear. induction n as [|n IH]; intros m a H; [lia|].
  rewrite seq_S, fold_left_app. cbn [fold_left].
  destruct (Nat.eq_dec a (d + n)) as [->|Ne]; [apply upd_eq|].
  rewrite upd_ne by assumption. apply IH. lia.
Qed.
Lemma clear_out d n : forall m a, (forall c, c < n -> a <> d + c) -> clear d n m a = m a.
Proof.
  unfold clear. induction n as [|n IH]; intros m a H; [reflexivity|].
  rewrite seq_S, fold_left_app. cbn [fold_left].
  rewrite upd_ne by (apply H; lia). apply IH. intros; apply H; lia.
Qed.

Lemma first_values_out : forall l m a, ~ In a (map fst l) -> first_values l m a = m a.
Proof.
  unfold first_values. induction l as [|[b x] l IH]; intros m a H; [reflexivity|].
  cbn in *. rewrite IH by tauto. apply upd_ne. intro; subst; tauto.
Qed.
Lemma first_values_in : forall l m a x, NoDup (map fst l) -> In (a, x) l -> first_values l m a = x.
Proof.
  unfold first_values. induction l as [|[b y] l IH]; intros m a x ND H; [destruct H|].
  cbn in *. inversion ND; subst. destruct H as [H|H].
  - injection H as -> ->. change (first_values l (upd m a x) a = x).
    rewrite first_values_out by assumption. apply upd_eq.
  - now apply IH.
Qed.

(** Does the reset of part [q] write the flow cell of pump [p]? *)
Definition shares (N : design) (st : topo) (p q : nat) : Prop :=
  kd N q = KPipe /\ view st q = Some (dcell N p).

Lemma pump_cell N p : kd N p = KPump -> own N (p, 0) = dcell N p.
Proof. intro K. unfold own, kind_of. cbn. rewrite K. cbn. lia. Qed.

Lemma reset_other N st g p q m : buildable N -> p < nparts N -> q < nparts N ->
  kd N p = KPump -> q <> p -> ~ shares N st p q ->
  reset_part N st g q m (dcell N p) = m (dcell N p).
Proof.
  intros B Hp Hq K Ne Sh. unfold reset_part. destruct (kd N q) eqn:Kq.
  - apply upd_ne. unfold addr_of. cbn. destruct (view st q) as [a|] eqn:V.
    + intro E. apply Sh. split; congruence.
    + unfold own, kind_of. cbn. rewrite Kq. cbn. intro E.
      assert (p = q /\ 0 = 0); [|intuition congruence].
      apply (b_cells N B p q 0 0); rewrite ?K, ?Kq; cbn; try assumption; lia.
  - apply upd_ne. intro E. assert (p = q /\ 0 = 0); [|intuition congruence].
    apply (b_cells N B p q 0 0); rewrite ?K, ?Kq; cbn; try assumption; lia.
  - reflexivity.
  - reflexivity.
  - unfold set_split.
    assert (F : forall b, b < 2 -> dcell N p <> fcell N q + b).
    { intros b Hb E. apply (b_factors N B q p b 0); rewrite ?K; cbn; try assumption; lia. }
    rewrite upd_ne by (apply F; lia). apply upd_ne. pose proof (F 0 ltac:(lia)). lia.
  - apply clear_out. intros c Hc E. assert (p = q /\ 0 = c); [|intuition congruence].
    apply (b_cells N B p q 0 c); rewrite ?K, ?Kq; cbn; try assumption; lia.
  - apply clear_out. intros c Hc E. assert (p = q /\ 0 = c); [|intuition congruence].
    apply (b_cells N B p q 0 c); rewrite ?K, ?Kq; cbn; cbn in Hc; try assumption; lia.
Qed.

Lemma reset_shared N st g p q m : shares N st p q ->
  reset_part N st g q m (dcell N p) = 0%R.
Proof.
  intros [K V]. unfold reset_part. rewrite K. unfold addr_of. cbn. rewrite V. apply upd_eq.
Qed.

Lemma reset_later N st g p : buildable N -> p < nparts N -> kd N p = KPump ->
  forall n a m, p < a -> a + n = nparts N ->
  (fold_left (fun m q => reset_part N st g q m) (seq a n) m (dcell N p) = m (dcell N p)
   /\ (forall q, a <= q < nparts N -> ~ shares N st p q))
  \/ (fold_left (fun m q => reset_part N st g q m) (seq a n) m (dcell N p) = 0%R
      /\ exists q, a <= q < nparts N /\ shares N st p q).
Proof.
  intros B Hp K. induction n as [|n IH]; intros a m Ha E; cbn [seq fold_left].
  - left. split; [reflexivity|]. intros; lia.
  - destruct (IH (S a) (reset_part N st g a m)) as [[V Q]|[V [q [H1 H2]]]]; try lia.
    + assert (D : shares N st p a \/ ~ shares N st p a).
      { unfold shares. destruct (kd N a); try (right; intros [? _]; discriminate).
        destruct (view st a) as [b|]; [|right; intros [_ ?]; discriminate].
        destruct (Nat.eq_dec b (dcell N p)) as [->|]; [left; auto|right; intros [_ ?]; congruence]. }
      destruct D as [D|D].
      * right. rewrite V. split; [now apply reset_shared|]. exists a. split; [lia|assumption].
      * left. rewrite V. split; [apply reset_other; try assumption; lia|].
        intros q Hq. destruct (Nat.eq_dec q a) as [->|]; [assumption|]. apply Q. lia.
    + right. split; [assumption|]. exists q. split; [lia|assumption].
Qed.

Lemma reset_split N st g p m : p < nparts N ->
  reset_parts N st g m = fold_left (fun m q => reset_part N st g q m) (seq (S p) (nparts N - S p))
    (reset_part N st g p (fold_left (fun m q => reset_part N st g q m) (seq 0 p) m)).
Proof.
  intro H. unfold reset_parts.
  replace (nparts N) with (p + S (nparts N - S p)) at 1 by lia.
  rewrite seq_app, fold_left_app. reflexivity.
Qed.

(** A pump gets its flow back exactly if no pipe created after it shares its flow array. *)
Theorem C178_pump : forall N sched st g m p, buildable N -> inside N sched ->
  topology N sched = Done st -> p < nparts N -> kd N p = KPump -> g_pipe g p = false ->
  ~ In (dcell N p) (map fst (g_series g)) ->
  reset_flows N st g m (dcell N p) = g_flow g p
  <-> g_flow g p = 0%R
      \/ (forall q, p < q < nparts N -> ~ (kd N q = KPipe /\ view st q = Some (dcell N p))).
Proof.
  intros N sched st g m p B _ _ Hp K G NS. unfold reset_flows.
  rewrite first_values_out by assumption. rewrite (reset_split N st g p m Hp).
  set (m1 := fold_left _ (seq 0 p) m).
  assert (M : reset_part N st g p m1 (dcell N p) = g_flow g p).
  { unfold reset_part. rewrite K, G. apply upd_eq. }
  destruct (reset_later N st g p B Hp K (nparts N - S p) (S p) (reset_part N st g p m1))
    as [[V Q]|[V [q [H1 H2]]]]; try lia; rewrite V.
  - rewrite M. split; [right|reflexivity]. intros q Hq. apply Q. lia.
  - split; [left; congruence|]. intros [E|H]; [congruence|].
    exfalso. apply (H q); [lia|assumption].
Qed.
Print Assumptions C178_pump.

(** Flows and openings given by a time series start again with its first value, in every
    network. *)
Theorem C178_series : forall N st g m a x, NoDup (map fst (g_series g)) -> In (a, x) (g_series g) ->
  reset_flows N st g m a = x.
Proof. intros. unfold reset_flows. now apply first_values_in. Qed.
Print Assumptions C178_series.

(** Split factors of different parts are different cells. *)
Definition factors_apart (N : design) : Prop := forall p q b c, p < nparts N -> q < nparts N ->
  b < 2 -> c < 2 -> fcell N p + b = fcell N q + c -> p = q /\ b = c.

Lemma view_no_factor N st q a : inv N st -> buildable N -> view st q = Some a -> ~ factor N a.
Proof.
  intros I B V F. destruct (i_view N st I _ _ V) as (_ & _ & [H|(x & Vx & _ & <-)]).
  - apply in_map_iff in H. destruct H as (e & <- & He). apply essential_in in He.
    destruct (i_tgt N st I _ He) as (x & Vx & _ & E & _). rewrite E in F.
    now apply (own_not_factor N x B Vx).
  - now apply (own_not_factor N x B Vx).
Qed.

Lemma clear_factor N q n m p b : buildable N -> p < nparts N -> q < nparts N -> b < 2 ->
  n = ncells (kd N q) -> clear (dcell N q) n m (fcell N p + b) = m (fcell N p + b).
Proof.
  intros B Hp Hq Hb ->. apply clear_out. intros c Hc E. now apply (b_factors N B p q b c).
Qed.

Lemma reset_factor N st g q m p b : buildable N -> inv N st -> factors_apart N ->
  p < nparts N -> q < nparts N -> b < 2 -> (q <> p \/ forall k, kd N q <> KValve k) ->
  reset_part N st g q m (fcell N p + b) = m (fcell N p + b).
Proof.
  intros B I A Hp Hq Hb Ne. unfold reset_part. destruct (kd N q) eqn:K; try reflexivity.
  - apply upd_ne. unfold addr_of. cbn. destruct (view st q) as [a|] eqn:V.
    + intros <-. apply (view_no_factor N st q _ I B V). exists p, b. auto.
    + apply (b_factors N B p q b); try assumption. unfold kind_of. cbn. rewrite K. cbn. lia.
  - apply upd_ne. pose proof (b_factors N B p q b 0 Hp Hq Hb). rewrite K in H. specialize (H ltac:(cbn; lia)). lia.
  - destruct Ne as [Ne|Ne]; [|now destruct (Ne mix)]. unfold set_split.
    rewrite upd_ne by (intro E; destruct (A p q b 1 Hp Hq Hb ltac:(lia) E); congruence).
    apply upd_ne. intro E. destruct (A p q b 0 Hp Hq Hb ltac:(lia) ltac:(lia)). congruence.
  - now apply clear_factor; rewrite ?K.
  - now apply clear_factor; rewrite ?K.
Qed.

Lemma reset_factors N st g p b : buildable N -> inv N st -> factors_apart N ->
  p < nparts N -> b < 2 -> forall l m, (forall q, In q l -> q < nparts N /\ (q <> p \/ forall k, kd N q <> KValve k)) ->
  fold_left (fun m q => reset_part N st g q m) l m (fcell N p + b) = m (fcell N p + b).
Proof.
  intros B I A Hp Hb. induction l as [|q l IH]; intros m H; cbn [fold_left]; [reflexivity|].
  rewrite IH by (intros; apply H; now right). destruct (H q (or_introl eq_refl)).
  now apply reset_factor.
Qed.

(** Valves start again with the opening they were given, in every network. *)
Theorem C178_valve : forall N sched st g m p mix, buildable N -> inside N sched ->
  topology N sched = Done st -> factors_apart N -> p < nparts N -> kd N p = KValve mix ->
  ~ In (fcell N p) (map fst (g_series g)) -> ~ In (fcell N p + 1) (map fst (g_series g)) ->
  reset_flows N st g m (fcell N p) = g_open g p
  /\ reset_flows N st g m (fcell N p + 1) = (1 - g_open g p)%R.
Proof.
  intros N sched st g m p mix B F T A Hp K S0 S1.
  pose proof (accepted_inv N sched st B F T) as I. unfold reset_flows.
  rewrite !first_values_out by assumption. rewrite (reset_split N st g p m Hp).
  assert (L : forall b, b < 2 -> forall m,
    fold_left (fun m q => reset_part N st g q m) (seq (S p) (nparts N - S p)) m (fcell N p + b)
    = m (fcell N p + b)).
  { intros b Hb m'. apply reset_factors; try assumption.
    intros q Hq. apply in_seq in Hq. split; [lia|left; lia]. }
  set (m1 := fold_left _ (seq 0 p) m).
  rewrite (L 1) by lia. pose proof (L 0 ltac:(lia)) as L0. rewrite Nat.add_0_r in L0. rewrite L0.
  unfold reset_part. rewrite K. unfold set_split. split.
  - rewrite upd_ne by lia. apply upd_eq.
  - apply upd_eq.
Qed.
Print Assumptions C178_valve.

(** The opening of a pipe with valve is not reset: the second run starts with the opening the
    first one ended with. *)
Theorem C178_pipe_valve_refuted : forall N sched st g m p b, buildable N -> inside N sched ->
  topology N sched = Done st -> factors_apart N -> p < nparts N -> kd N p = KPValve -> b < 2 ->
  ~ In (fcell N p + b) (map fst (g_series g)) ->
  reset_flows N st g m (fcell N p + b) = m (fcell N p + b).
Proof.
  intros N sched st g m p b B F T A Hp K Hb NS.
  pose proof (accepted_inv N sched st B F T) as I. unfold reset_flows, reset_parts.
  rewrite first_values_out by assumption. apply reset_factors; try assumption.
  intros q Hq. apply in_seq in Hq. split; [lia|].
  destruct (Nat.eq_dec q p) as [->|]; [right|left; assumption]. intros k E. congruence.
Qed.
Print Assumptions C178_pipe_valve_refuted.

(** A pipe with pump never gets its start flow back. *)
Theorem C178_pipe_pump_refuted : forall N sched st g m p, buildable N -> inside N sched ->
  topology N sched = Done st -> p < nparts N -> kd N p = KPump -> g_pipe g p = true ->
  ~ In (dcell N p) (map fst (g_series g)) ->
  reset_flows N st g m (dcell N p) = 0%R.
Proof.
  intros N sched st g m p B _ _ Hp K G NS. unfold reset_flows.
  rewrite first_values_out by assumption. rewrite (reset_split N st g p m Hp).
  set (m1 := fold_left _ (seq 0 p) m).
  assert (M : reset_part N st g p m1 (dcell N p) = 0%R).
  { unfold reset_part. rewrite K, G. apply upd_eq. }
  destruct (reset_later N st g p B Hp K (nparts N - S p) (S p) (reset_part N st g p m1))
    as [[V _]|[V _]]; try lia; rewrite V; [assumption|reflexivity].
Qed.
Print Assumptions C178_pipe_pump_refuted.

(** ** Which pipes share the array of a pump *)
Definition fixed_view (q : nat) (a : addr) (st : topo) : Prop :=
  view st q = Some a /\ solved st q <> [].
Definition keeps (P : topo -> Prop) (r : res topo) : Prop := match r with Done st => P st | _ => True end.

Lemma record_fixed N st q a root sd x par ans : kd N q = KPipe -> fixed_view q a st ->
  ask N st root sd x par = Some ans -> fixed_view q a (record st x ans).
Proof.
  intros K [V Sq] A. unfold fixed_view, record. cbn [view solved].
  destruct (Nat.eqb_spec q (fst x)) as [E|].
  - split.
    + replace (a_view ans) with (@None addr); [assumption|].
      unfold ask in A. rewrite <- E, K in A. destruct (option_map _ par) as [c|]; [|discriminate].
      assert (O : open N st q =? 2 = false).
      { apply Nat.eqb_neq. unfold open. rewrite K. destruct (solved st q); [congruence|cbn [nports length]; lia]. }
      rewrite O in A. injection A as <-. reflexivity.
    + destruct (_ && _)%bool; [|assumption]. destruct (solved st q); [congruence|discriminate].
  - cbn. split; assumption.
Qed.

Lemma loop_fixed go N root sub p par ch q a : kd N q = KPipe ->
  (forall r x j sd st, fixed_view q a st -> keeps (fixed_view q a) (go r x j sd st)) ->
  forall l sd st, fixed_view q a st -> keeps (fixed_view q a) (ports_loop go N root sub p par ch l sd st).
Proof.
  intros K G. induction l as [|i r IH]; intros sd st F; cbn [ports_loop]; [exact F|].
  destruct (is_solved st (p, i)); [now apply IH|].
  destruct (skipped _ _ _); [now apply IH|].
  destruct (ask _ _ _ _ _ _) as [ans|] eqn:A; [|exact I].
  pose proof (record_fixed N st q a root _ _ _ ans K F A) as F'.
  destruct (match par with Some _ => _ | None => false end); [exact F'|].
  destruct (negb _); [exact I|].
  destruct (link N (p, i)) as [[r' j]|]; [|now apply IH].
  destruct (is_solved _ (r', j)); [now apply IH|].
  destruct (_ && _)%bool; [exact I|]. destruct (in_hydr _ _ _); [|now apply IH].
  match goal with |- context [go r' ?x j ?s ?t] =>
    pose proof (G r' x j s t F') as Gx; destruct (go r' x j s t) end; try exact I.
  now apply IH.
Qed.

Lemma recurse_fixed N root sub q a : kd N q = KPipe -> forall fuel p par next sd st,
  fixed_view q a st -> keeps (fixed_view q a) (recurse fuel N root sub p par next sd st).
Proof.
  intros K. induction fuel as [|fuel IH]; intros p par next sd st F; [exact I|].
  cbn [recurse]. destruct (in_hydr N st p); [|exact F].
  apply loop_fixed; try assumption. intros. now apply IH.
Qed.

Lemma fold_fixed (P : topo -> Prop) (f : nat -> topo -> res topo) :
  (forall p st, P st -> keeps P (f p st)) ->
  forall l r, keeps P r -> keeps P (fold_left (fun r p => bind r (f p)) l r).
Proof.
  intros H. induction l as [|p l IH]; intros r Hr; [exact Hr|]. cbn [fold_left]. apply IH.
  destruct r; [now apply H|exact I..].
Qed.

(** A pipe entered for the first time takes over the array of its neighbour. *)
Lemma loop_pipe_first go N root sub q y ch j r sd st : kd N q = KPipe -> solved st q = [] ->
  p_pos (cond N st (q, j) y) = true ->
  (forall r x j sd s, fixed_view q (addr_of N st y) s ->
     keeps (fixed_view q (addr_of N st y)) (go r x j sd s)) ->
  keeps (fixed_view q (addr_of N st y)) (ports_loop go N root sub q (Some y) ch (j :: r) sd st).
Proof.
  intros K Nil Pos G. cbn [ports_loop]. unfold is_solved at 1. cbn [fst snd]. rewrite Nil.
  cbn [mem_nat existsb]. unfold skipped at 1. rewrite K. cbv iota.
  unfold ask at 1. cbn [fst snd]. rewrite K. cbn [option_map].
  replace (open N st q =? 2) with true by (unfold open; now rewrite K, Nil). rewrite Pos. cbv iota.
  change (p_src (cond N st (q, j) y)) with (addr_of N st y).
  set (a := addr_of N st y) in *. set (st2 := record st _ _).
  assert (F2 : fixed_view q a st2).
  { unfold fixed_view, st2, record. cbn [view solved fst snd a_view a_marks].
    rewrite Nat.eqb_refl. cbn [andb]. split; [reflexivity|]. rewrite Nil. discriminate. }
  unfold breaks at 1. rewrite K. cbv iota. unfold limits_ok at 1. cbn [a_out existsb negb].
  assert (Rest : forall sd s, fixed_view q a s ->
    keeps (fixed_view q a) (ports_loop go N root sub q (Some y) ch r sd s))
    by (intros; now apply loop_fixed).
  destruct (link N (q, j)) as [[r' k]|]; [|now apply Rest].
  destruct (is_solved st2 (r', k)); [now apply Rest|].
  destruct (is_pump N r' && negb (r' =? root))%bool; [exact I|].
  destruct (in_hydr N st2 r'); [|now apply Rest].
  pose proof (G r' (q, j) k sd st2 F2) as Gx. destruct (go r' (q, j) k sd st2); try exact I.
  now apply Rest.
Qed.

Lemma recurse_pipe_first n N root sub q y j sd st : kd N q = KPipe -> solved st q = [] ->
  p_pos (cond N st (q, j) y) = true ->
  keeps (fixed_view q (addr_of N st y)) (recurse (S n) N root sub q (Some y) (Some j) sd st).
Proof.
  intros K Nil Pos. cbn [recurse].
  replace (in_hydr N st q) with true
    by (unfold in_hydr; rewrite K; unfold open; now rewrite K, Nil).
  unfold port_order. apply loop_pipe_first; try assumption. intros. now apply recurse_fixed.
Qed.

(** Pump [p] as root, port [i] linked to a pipe nobody has visited. *)
Lemma loop_pump_first go N p q j i r ch sd st : kd N p = KPump -> kd N q = KPipe ->
  link N (p, i) = Some (q, j) -> solved st q = [] -> is_solved st (p, i) = false ->
  view st p = None ->
  (forall r x j sd s, fixed_view q (dcell N p) s -> keeps (fixed_view q (dcell N p)) (go r x j sd s)) ->
  (forall sd s, solved s q = [] -> addr_of N s (p, i) = dcell N p ->
     keeps (fixed_view q (dcell N p)) (go q (p, i) j sd s)) ->
  keeps (fixed_view q (dcell N p)) (ports_loop go N p false p None ch (i :: r) sd st).
Proof.
  intros K Kq L Nil Up V G G1. cbn [ports_loop]. rewrite Up. unfold skipped at 1. rewrite K. cbv iota.
  unfold ask at 1. cbn [fst snd]. rewrite K. unfold limits_ok. cbn [nothing a_out existsb negb].
  rewrite L. set (st1 := record st (p, i) nothing).
  assert (Npq : q <> p) by (intro; congruence).
  assert (S1 : solved st1 q = []).
  { unfold st1, record. cbn [solved fst snd nothing a_marks].
    destruct (Nat.eqb_spec q p); [congruence|]. exact Nil. }
  assert (V1 : addr_of N st1 (p, i) = dcell N p).
  { unfold addr_of, st1, record. cbn [view fst nothing a_view]. rewrite Nat.eqb_refl, V.
    unfold own, kind_of. cbn [fst snd]. rewrite K. cbn. lia. }
  unfold is_solved at 1. cbn [fst snd]. rewrite S1. cbn [mem_nat existsb].
  unfold is_pump at 1. rewrite Kq. cbn [andb].
  replace (in_hydr N st1 q) with true
    by (unfold in_hydr; rewrite Kq; unfold open; now rewrite Kq, S1).
  match goal with |- context [go q (p, i) j ?s st1] =>
    pose proof (G1 s st1 S1 V1) as Gx; destruct (go q (p, i) j s st1) end; try exact I.
  apply loop_fixed; try assumption.
Qed.

(** Pump [p] sucks from the end of pipe [q]: the pipe shares the array of the first pump. *)
Lemma first_pump_view N sched st p q : topology N sched = Done st ->
  p < nparts N -> kd N p = KPump -> (forall r, r < p -> kd N r <> KPump) ->
  kd N q = KPipe -> link N (p, 0) = Some (q, 1) -> view st q = Some (dcell N p).
Proof.
  intros T Hp K First Kq L.
  assert (Bef : forall n, n <= p -> fold_left (fun r p => bind r (fun st =>
    if is_pump N p then recurse (fuel_for N) N p false p None None Suction st else Done st))
    (seq 0 n) (Done (start N)) = Done (start N)).
  { induction n as [|n IH]; intro Hn; [reflexivity|]. rewrite seq_S, fold_left_app, IH by lia.
    cbn [fold_left bind plus]. unfold is_pump. pose proof (First n ltac:(lia)).
    destruct (kd N n); try reflexivity. congruence. }
  set (F := fixed_view q (dcell N p)).
  assert (One : keeps F (recurse (fuel_for N) N p false p None None Suction (start N))).
  { unfold fuel_for. generalize (count_ports N). intro n.
    change (recurse (S (S n)) N p false p None None Suction (start N)) with
      (if in_hydr N (start N) p then
         ports_loop (fun q x j => recurse (S n) N p false q (Some x) (Some j)) N p false p None 0
           (seq 0 (nports (kd N p))) Suction (start N)
       else Done (start N)).
    replace (in_hydr N (start N) p) with true
      by (unfold in_hydr, open, start; cbn [solved]; now rewrite K).
    rewrite K. cbn [nports seq].
    apply loop_pump_first with (j := 1); try assumption; try reflexivity.
    - unfold start. cbn [solved]. now rewrite Kq.
    - unfold is_solved, start. cbn [solved fst]. now rewrite K.
    - intros. now apply recurse_fixed.
    - intros sd s Hs Ha. rewrite <- Ha. apply recurse_pipe_first; try assumption.
      unfold cond, kind_of. cbn [p_pos fst snd]. rewrite Kq, K. reflexivity. }
  assert (Pn : keeps F (pump_nets N)).
  { unfold pump_nets. replace (nparts N) with (p + S (nparts N - S p)) by lia.
    rewrite seq_app, fold_left_app, Bef by lia. cbn [plus seq fold_left bind].
    unfold is_pump at 2. rewrite K. apply (fold_fixed F (fun p st =>
      if is_pump N p then recurse (fuel_for N) N p false p None None Suction st else Done st)).
    - intros r s Hs. destruct (is_pump N r); [now apply recurse_fixed|exact Hs].
    - exact One. }
  unfold topology in T. destruct (pump_nets N) as [s| |]; try discriminate. cbn [bind] in T.
  assert (Sn : keeps F (sub_nets N sched s)).
  { unfold sub_nets. apply (fold_fixed F (fun p st =>
      if candidate N st p then recurse (fuel_for N) N p true p None None Sub st else Done st)).
    - intros r s' Hs. destruct (candidate N s' r); [now apply recurse_fixed|exact Hs].
    - exact Pn. }
  destruct (sub_nets N sched s) as [s2| |]; try discriminate. cbn [bind] in T.
  destruct (left_over_ok N s2); [|discriminate]. injection T as <-. apply Sn.
Qed.

(** In every network: if the first pump draws from a pipe created after it, its flow is zero
    after a reset, whatever start flow it was given. *)
Theorem C178_first_pump_refuted : forall N sched st g m p q, buildable N -> inside N sched ->
  topology N sched = Done st -> p < q < nparts N -> kd N p = KPump ->
  (forall r, r < p -> kd N r <> KPump) -> kd N q = KPipe -> link N (p, 0) = Some (q, 1) ->
  ~ In (dcell N p) (map fst (g_series g)) ->
  reset_flows N st g m (dcell N p) = 0%R.
Proof.
  intros N sched st g m p q B F T [Hpq Hq] K First Kq L NS.
  assert (Hp : p < nparts N) by lia.
  pose proof (first_pump_view N sched st p q T Hp K First Kq L) as V.
  unfold reset_flows. rewrite first_values_out by assumption. rewrite (reset_split N st g p m Hp).
  set (m1 := fold_left _ (seq 0 p) m).
  destruct (reset_later N st g p B Hp K (nparts N - S p) (S p) (reset_part N st g p m1))
    as [[_ H]|[E _]]; try lia; [|assumption].
  exfalso. apply (H q); [lia|]. split; assumption.
Qed.
Print Assumptions C178_first_pump_refuted.

(** The updates of the flows do not write to a pump: without a controller or series the flow
    after the reset stays for the whole second run. *)
Inductive updates (N : design) (st : topo) : mem -> mem -> Prop :=
| updates_none m : updates N st m m
| updates_more m m1 m2 : run_net (out st) m = Some m1 -> updates N st m1 m2 -> updates N st m m2.

Theorem C178_whole_run : forall N sched st m m' p, buildable N -> inside N sched ->
  topology N sched = Done st -> p < nparts N -> kd N p = KPump ->
  updates N st m m' -> m' (dcell N p) = m (dcell N p).
Proof.
  intros N sched st m m' p B F T Hp K U. pose proof (accepted_inv N sched st B F T) as I.
  induction U as [|m m1 m2 R _ IH]; [reflexivity|]. rewrite IH. rewrite run_essential in R.
  apply (run_frame (essential (out st)) m m1); try assumption.
  - apply Forall_essential. apply (i_form N st I).
  - apply (i_dep N st I).
  - intro H. apply in_map_iff in H. destruct H as (e & E & He). apply essential_in in He.
    destruct (i_tgt N st I _ He) as (x & Vx & _ & Et & Nf). apply Nf.
    apply (freeport_own N x (p, 0) B Vx).
    + split; [assumption|]. cbn. rewrite K. cbn. lia.
    + left. assumption.
    + rewrite pump_cell by assumption. congruence.
Qed.
Print Assumptions C178_whole_run.

(** ** Examples *)
(** A circuit of a pump and two pipes, described in the usual order and with the pump last. *)
Definition ring : design :=
  built [KPump; KPipe; KPipe] [((0, 1), (1, 0)); ((1, 1), (2, 0)); ((2, 1), (0, 0))] [].
Definition ring_last : design :=
  built [KPipe; KPipe; KPump] [((2, 1), (0, 0)); ((0, 1), (1, 0)); ((1, 1), (2, 0))] [].
Definition half : given :=
  {| g_flow := fun _ => (1 / 2)%R; g_open := fun _ => 0%R; g_pipe := fun _ => false; g_series := [] |}.

Example ring_lost : buildable ring /\ exists st, topology ring [] = Done st
  /\ view st 1 = Some 0 /\ view st 2 = Some 0
  /\ forall m, reset_flows ring st half m (dcell ring 0) = 0%R /\ g_flow half 0 <> 0%R.
Proof.
  assert (B : buildable ring) by (apply built_ok; reflexivity). split; [assumption|].
  destruct (accepts_done ring []) as [st T]; [vm_compute; reflexivity|]. exists st.
  split; [assumption|].
  assert (V : views ring [] 1 = view st 1 /\ views ring [] 2 = view st 2) by (unfold views; rewrite T; auto).
  destruct V as [<- <-]. split; [vm_compute; reflexivity|split; [vm_compute; reflexivity|]].
  intro m. split.
  - apply (C178_first_pump_refuted ring [] st half m 0 2 B (Forall_nil _) T); try reflexivity; cbn; try lia.
  - cbn. lra.
Qed.

Example ring_kept : buildable ring_last /\ exists st, topology ring_last [] = Done st
  /\ view st 0 = Some 20 /\ forall m, reset_flows ring_last st half m (dcell ring_last 2) = (1 / 2)%R.
Proof.
  assert (B : buildable ring_last) by (apply built_ok; reflexivity). split; [assumption|].
  destruct (accepts_done ring_last []) as [st T]; [vm_compute; reflexivity|]. exists st.
  split; [assumption|].
  assert (V : views ring_last [] 0 = view st 0) by (unfold views; now rewrite T).
  rewrite <- V. split; [vm_compute; reflexivity|]. intro m.
  apply (C178_pump ring_last [] st half m 2 B (Forall_nil _) T); try reflexivity; cbn; try lia.
  right. intros q Hq. lia.
Qed.

(** The heating circuit of C82: the boiler pipe takes its flow from the valve, so both pumps
    and the valve start again as given. *)
Definition quarter : given :=
  {| g_flow := fun p => if p =? 0 then 6%R else 4%R; g_open := fun _ => (1 / 4)%R;
     g_pipe := fun _ => false; g_series := [] |}.
Example heating_kept : exists st, topology heating [] = Done st /\ forall m,
  reset_flows heating st quarter m (dcell heating 0) = 6%R
  /\ reset_flows heating st quarter m (dcell heating 5) = 4%R
  /\ reset_flows heating st quarter m (fcell heating 4 + 1) = (3 / 4)%R.
Proof.
  destruct heating_accepted as [st T]. exists st. split; [assumption|]. intro m.
  assert (V : views heating [] 3 = view st 3) by (unfold views; now rewrite T).
  assert (V3 : view st 3 <> Some 0) by (rewrite <- V; vm_compute; discriminate).
  split; [|split].
  - apply (C178_pump heating [] st quarter m 0 heating_ok (Forall_nil _) T); try reflexivity; cbn; try lia.
    right. intros q Hq [K W].
    destruct q as [|[|[|[|[|[|q]]]]]]; cbn in K, W, Hq; try discriminate; try lia; contradiction.
  - apply (C178_pump heating [] st quarter m 5 heating_ok (Forall_nil _) T); try reflexivity; cbn; try lia.
    right. intros q Hq. lia.
  - etransitivity.
    + apply (C178_valve heating [] st quarter m 4 true heating_ok (Forall_nil _) T); try reflexivity; cbn; try lia; try tauto.
      intros a b c d _ _ Hc Hd E. cbn in E. lia.
    + cbn. lra.
Qed.

(** A pump driven by a series gets its first value back although pipes share its array. *)
Example ring_series : forall st m,
  reset_flows ring st {| g_flow := fun _ => (1 / 2)%R; g_open := fun _ => 0%R;
    g_pipe := fun _ => false; g_series := [(0, (1 / 5)%R)] |} m (dcell ring 0) = (1 / 5)%R.
Proof.
  intros. apply C178_series; cbn; [|now left]. constructor; [tauto|constructor].
Qed.

(** A pipe with pump and a pipe with valve. *)
Example pipe_pump_lost : exists st, topology ring_last [] = Done st /\ forall m,
  reset_flows ring_last st {| g_flow := fun _ => (1 / 2)%R; g_open := fun _ => 0%R;
    g_pipe := fun _ => true; g_series := [] |} m (dcell ring_last 2) = 0%R.
Proof.
  assert (B : buildable ring_last) by (apply built_ok; reflexivity).
  destruct (accepts_done ring_last []) as [st T]; [vm_compute; reflexivity|]. exists st.
  split; [assumption|]. intro m.
  apply (C178_pipe_pump_refuted ring_last [] st _ m 2 B (Forall_nil _) T); try reflexivity; cbn; try lia.
Qed.
