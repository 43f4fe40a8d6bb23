(** Properties of the topology analyser and of the flow network it builds. *)
From Coq Require Import Reals ZArith List Bool Lra Lia Arith FunctionalExtensionality.
From Verif Require Import MNet SNet LNet MTopo STopo LTopo LTopo2 LTopo3 LTopo4 LTopo5 LTopo6 LTopo7.
Import ListNotations.
Local Open Scope nat_scope.

Definition inside (N : design) (sched : list nat) : Prop := Forall (fun p => p < nparts N) sched.

Lemma accepted_steps N sched st : buildable N -> inside N sched ->
  topology N sched = Done st -> steps N (start N) st /\ left_over_ok N st = true.
Proof.
  intros B F T. pose proof (topology_good N sched B F) as G. rewrite T in G. split; [exact G|].
  unfold topology in T. destruct (pump_nets N); cbn in T; try discriminate.
  destruct (sub_nets N sched a); cbn in T; try discriminate.
  destruct (left_over_ok N a0) eqn:E; [|discriminate]. injection T as <-. assumption.
Qed.

Lemma accepted_inv N sched st : buildable N -> inside N sched ->
  topology N sched = Done st -> inv N st.
Proof.
  intros B F T. destruct (accepted_steps N sched st B F T) as [S _].
  eapply inv_steps; eauto. now apply inv_start.
Qed.

Lemma accepted_solved N sched st : buildable N -> inside N sched ->
  topology N sched = Done st -> forall x, valid N x ->
  (forall n, kd N (fst x) <> KHub true n) -> is_solved st x = true.
Proof.
  intros B F T [p i] [V1 V2] K. cbn in *.
  destruct (accepted_steps N sched st B F T) as [S L].
  unfold left_over_ok in L. rewrite forallb_forall in L.
  specialize (L p ltac:(apply in_seq; lia)).
  pose proof (i_wf N st (accepted_inv N sched st B F T)) as W.
  apply solved_in. apply (wf_full N st p W); [|assumption].
  pose proof (wf_length N st p W). unfold open in L.
  destruct (kd N p) as [| | | | | |[|] n];
    try (apply Nat.eqb_eq in L; cbn [nports] in *; lia).
  exfalso. now apply (K n).
Qed.

(** C81: building the topology always ends; the relations it hands to the flow
    update compute every flow once and before its first use. *)
Theorem C81_ordered : forall N sched, buildable N -> inside N sched ->
  match topology N sched with
  | OutOfFuel => False
  | Raised => True
  | Done st =>
      Forall well_formed (out st) /\ dep_ordered (essential (out st))
      /\ (forall e a, In e (out st) -> In a (srcs e) ->
          In a (map tgt (essential (out st))) \/ free N a \/ factor N a)
      /\ (forall e, In e (out st) -> ~ free N (tgt e) /\ ~ factor N (tgt e))
      /\ (forall m m', run_net (out st) m = Some m' ->
          (forall e, In e (out st) -> satisfies m' e)
          /\ (forall a, ~ In a (map tgt (out st)) -> m' a = m a))
  end.
Proof.
  intros N sched B F. pose proof (topology_good N sched B F) as G.
  destruct (topology N sched) as [st| |] eqn:T; [|exact I|exact G].
  pose proof (accepted_inv N sched st B F T) as Iv.
  split; [apply Iv|]. split; [apply Iv|]. split; [|split].
  - intros e a He Ha. destruct (i_src N st Iv e a He Ha) as [[H|H]|H]; auto.
  - intros e He. destruct (i_tgt N st Iv e He) as (x & V & S & E & NF). rewrite E. split.
    + intros (z & Vz & Fz & Ez). apply NF. now apply (freeport_own N x z B V Vz).
    + now apply own_not_factor.
  - intros m m' R. rewrite run_essential in R.
    destruct (C10_proof (essential (out st)) m m') as [H1 H2]; try assumption; [|apply Iv|].
    + apply Forall_essential. apply Iv.
    + split; [now apply all_sat_essential|]. intros a Ha. apply H2. intro H. apply Ha.
      apply in_map_iff in H. destruct H as (e & <- & He). apply in_map. now apply essential_in.
Qed.

(** C82: whenever the pump flows and valve positions admit a physically
    consistent flow distribution, the update computes exactly this distribution. *)
Theorem C82_physical : forall N sched st m phi, buildable N -> inside N sched ->
  topology N sched = Done st -> consistent N m phi -> branches_open N m ->
  exists m', run_net (out st) m = Some m'
  /\ (forall x, valid N x -> is_solved st x = true -> flow N st m' x = phi x)
  /\ (forall x, valid N x -> (forall n, kd N (fst x) <> KHub true n) -> flow N st m' x = phi x)
  /\ (forall a, ~ In a (map tgt (out st)) -> m' a = m a).
Proof.
  intros N sched st m phi B F T C D.
  pose proof (accepted_inv N sched st B F T) as Iv.
  destruct (accepted_steps N sched st B F T) as [S _].
  pose proof (sem_steps N m phi B C D _ _ (inv_start N B) (sem_start N m phi) S) as Sm.
  destruct (update_physical N m phi B C st Iv Sm) as (m' & R & H & Fr).
  exists m'. split; [assumption|]. split; [assumption|]. split; [|assumption].
  intros x V K. apply H; [assumption|]. eapply accepted_solved; eauto.
Qed.

(** The flows of an accepted design are determined by pumps and valves ... *)
Theorem C82_unique : forall N sched st m phi psi, buildable N -> inside N sched ->
  topology N sched = Done st -> branches_open N m ->
  consistent N m phi -> consistent N m psi ->
  forall x, valid N x -> (forall n, kd N (fst x) <> KHub true n) -> phi x = psi x.
Proof.
  intros N sched st m phi psi B F T D C1 C2 x V K.
  destruct (C82_physical N sched st m phi B F T C1 D) as (m1 & R1 & _ & H1 & _).
  destruct (C82_physical N sched st m psi B F T C2 D) as (m2 & R2 & _ & H2 & _).
  assert (m1 = m2) by congruence. subst m2. rewrite <- (H1 x V K). now apply H2.
Qed.

(** ... and do not depend on the order in which sub nets are solved. *)
Theorem C82_schedule : forall N s1 s2 st1 st2 m phi, buildable N ->
  inside N s1 -> inside N s2 ->
  topology N s1 = Done st1 -> topology N s2 = Done st2 ->
  consistent N m phi -> branches_open N m ->
  exists m1 m2, run_net (out st1) m = Some m1 /\ run_net (out st2) m = Some m2
  /\ (forall x, valid N x -> (forall n, kd N (fst x) <> KHub true n) ->
      flow N st1 m1 x = flow N st2 m2 x).
Proof.
  intros N s1 s2 st1 st2 m phi B F1 F2 T1 T2 C D.
  destruct (C82_physical N s1 st1 m phi B F1 T1 C D) as (m1 & R1 & _ & H1 & _).
  destruct (C82_physical N s2 st2 m phi B F2 T2 C D) as (m2 & R2 & _ & H2 & _).
  exists m1, m2. split; [assumption|]. split; [assumption|]. intros x V K.
  rewrite (H1 x V K). symmetry. now apply H2.
Qed.

(** C83: after every update of an accepted design the balance of every part
    holds, whether or not a consistent distribution exists. *)
Theorem C83_balance : forall N sched st m m', buildable N -> inside N sched ->
  topology N sched = Done st -> run_net (out st) m = Some m' ->
  forall p, p < nparts N ->
  let q := flow N st m' in
  match kd N p with
  | KPipe => q (p, 0) = q (p, 1)
  | KPump => q (p, 0) = m (dcell N p) /\ q (p, 1) = m (dcell N p)
  | KHex _ => q (p, 0) = q (p, 1) /\ q (p, 2) = q (p, 3)
              /\ (external N p = true -> q (p, 2) = m (dcell N p + 1))
  | KConn => (q (p, 0%nat) + q (p, 1%nat) + q (p, 2%nat) = 0)%R
  | KValve _ => (q (p, 0%nat) = m (fcell N p) * q (p, 2%nat)
                /\ q (p, 1%nat) = m (fcell N p + 1)%nat * q (p, 2%nat))%R
  | KPValve => (q (p, 0%nat) = - (m (fcell N p) * q (p, 2%nat))
                /\ q (p, 1%nat) = - (m (fcell N p + 1)%nat * q (p, 2%nat)))%R
  | KHub _ n => (exists i, (i < n)%nat /\ link N (p, i) = None /\ is_solved st (p, i) = true) ->
                fold_right Rplus 0%R (map (fun i => q (p, i)) (seq 0 n)) = 0%R
  end.
Proof.
  intros N sched st m m' B F T R p Hp q.
  pose proof (accepted_inv N sched st B F T) as Iv.
  destruct (accepted_steps N sched st B F T) as [S _].
  assert (AS := accepted_solved N sched st B F T).
  pose proof (C81_ordered N sched B F) as C81. rewrite T in C81.
  destruct C81 as (_ & _ & _ & Tg & C81). destruct (C81 m m' R) as [Sat Fr]. clear C81.
  pose proof (balanced_steps N _ st B (inv_start N B) S
    (fun m _ p _ => balanced_start N m p) m' Sat p Hp) as Bal.
  assert (Free : forall a, free N a -> m' a = m a).
  { intros a Ha. apply Fr. intro H. apply in_map_iff in H. destruct H as (e & <- & He).
    exact (proj1 (Tg e He) Ha). }
  assert (Fac : forall b, b < 2 -> m' (fcell N p + b) = m (fcell N p + b)).
  { intros b Hb. apply Fr. intro H. apply in_map_iff in H. destruct H as (e & E & He).
    apply (proj2 (Tg e He)). exists p, b. auto. }
  assert (Q : kd N p <> KPipe -> forall i, q (p, i) = m' (own N (p, i))).
  { intros K i. unfold q, flow, addr_of. cbn [fst].
    destruct (view st p) as [a|] eqn:E; [|reflexivity].
    destruct (i_view N st Iv _ _ E) as [K' _]. contradiction. }
  assert (Fl : kd N p <> KPipe -> forall i, cellix (kd N p) i = i -> q (p, i) = fl N m' p i).
  { intros K i E. rewrite (Q K). unfold fl. now rewrite own_flat. }
  destruct (kd N p) eqn:K.
  - unfold q, flow, addr_of, own, kind_of. cbn [fst snd]. rewrite K. reflexivity.
  - assert (E : forall i, i < 2 -> q (p, i) = m (dcell N p)).
    { intros i Hi. rewrite (Q ltac:(congruence)). rewrite Free.
      - unfold own, kind_of. cbn. rewrite K. cbn. now rewrite Nat.add_0_r.
      - exists (p, i). split; [split; cbn; [assumption|now rewrite K]|].
        split; [now left|reflexivity]. }
    split; apply E; lia.
  - assert (E : forall i, q (p, i) = m' (dcell N p + i / 2)).
    { intro i. rewrite (Q ltac:(congruence)). unfold own, kind_of. cbn [fst snd]. now rewrite K. }
    rewrite !E. cbn [Nat.div Nat.divmod fst]. split; [reflexivity|]. split; [reflexivity|].
    intro Ex. apply Free. exists (p, 2). split; [split; cbn; [assumption|rewrite K; cbn; lia]|].
    split; [right; cbn; eauto|]. unfold own, kind_of. cbn. now rewrite K.
  - rewrite !Fl by (congruence || reflexivity). apply (bal_conn N st m' p Bal K).
    intros i Hi. apply AS; [split; cbn; [assumption|now rewrite K]|]. cbn. congruence.
  - rewrite !Fl by (congruence || reflexivity).
    assert (E : forall i, i < 2 -> (fl N m' p i = m (fcell N p + i)%nat * fl N m' p 2)%R).
    { intros i Hi. rewrite (bal_valve N st m' p Bal mix i K Hi).
      - unfold sf. now rewrite Fac.
      - apply AS; [split; cbn; [assumption|rewrite K; cbn; lia]|]. cbn. congruence. }
    split; [rewrite (E 0) by lia; now rewrite Nat.add_0_r|apply E; lia].
  - rewrite !Fl by (congruence || reflexivity).
    assert (So : forall i, i < 3 -> is_solved st (p, i) = true).
    { intros i Hi. apply AS; [split; cbn; [assumption|now rewrite K]|]. cbn. congruence. }
    assert (E : forall i, i < 2 -> (fl N m' p i = - (m (fcell N p + i)%nat * fl N m' p 2))%R).
    { intros i Hi. rewrite (bal_pv N st m' p Bal i K Hi) by (apply So; lia).
      unfold sf. now rewrite Fac. }
    split; [rewrite (E 0) by lia; now rewrite Nat.add_0_r|apply E; lia].
  - intros (i & Hi & L & So).
    destruct (bal_hub N st m' p Bal comp n i K Hi L So) as [_ H].
    etransitivity; [|exact H]. f_equal. apply map_ext. intro k. apply Fl; congruence || reflexivity.
Qed.

(** Every port of every part but the storages gets a flow. *)
Theorem C83_complete : forall N sched st, buildable N -> inside N sched ->
  topology N sched = Done st -> forall x, valid N x ->
  (forall n, kd N (fst x) <> KHub true n) ->
  is_solved st x = true
  /\ (In (addr_of N st x) (map tgt (out st)) \/ free N (addr_of N st x)).
Proof.
  intros N sched st B F T x V K. pose proof (accepted_solved N sched st B F T x V K) as S.
  split; [assumption|]. pose proof (accepted_inv N sched st B F T) as Iv.
  destruct (addr_settled N st x Iv V S) as [H|H]; [left|now right].
  apply in_map_iff in H. destruct H as (e & <- & He). apply in_map. now apply essential_in.
Qed.

(** C84: in a closed circuit of pumps, pipes, heat exchangers, connectors and
    valves with one pump and at most as many valves as connectors (more exactly
    2 pumps + valves <= connectors + 2) both ends of every connection show the same
    flow after every update. *)
Theorem C84_circuit_partial : forall N sched st m m' c, buildable N -> inside N sched ->
  topology N sched = Done st -> run_net (out st) m = Some m' -> circuit N c ->
  (forall p, p < nparts N -> k_valve (kd N p) = true ->
     (m (fcell N p) + m (fcell N p + 1)%nat = 1)%R) ->
  2 * count N c k_pump + count N c k_valve <= count N c k_conn + 2 ->
  forall x y, valid N x -> c x = true -> link N x = Some y -> joined N st m' x y.
Proof.
  intros N sched st m m' c B F T R HC Hf Hn x y V Cx L.
  pose proof (accepted_inv N sched st B F T) as Iv.
  destruct (accepted_steps N sched st B F T) as [S _].
  destruct (passed_on_steps N _ st B (inv_start N B) S (ex_intro _ [] (passed_on_start N))) as [Q HQ].
  pose proof (C81_ordered N sched B F) as C81. rewrite T in C81.
  destruct C81 as (_ & _ & _ & _ & C81). destruct (C81 m m' R) as [Sat _]. clear C81.
  pose proof (C83_balance N sched st m m' B F T R) as Bal. cbn zeta in Bal.
  set (q := flow N st m') in *.
  set (s := fun z : port => (if char (kind_of N z) (snd z) then q z else - q z)%R).
  assert (J : forall z w, joined N st m' z w <-> (s z + s w = 0)%R).
  { intros z w. unfold joined, s. fold q.
    destruct (char (kind_of N z) (snd z)), (char (kind_of N w) (snd w)); cbn; split; lra. }
  apply J.
  assert (AS : forall z, valid N z -> c z = true -> is_solved st z = true).
  { intros z Vz Cz. apply (accepted_solved N sched st B F T z Vz).
    intros n. now apply (ci_hub N c HC). }
  pose proof (count_ports_le N st c Q B (i_wf N st Iv) HQ HC AS) as Hc.
  apply (last_pair N Q s c B); try assumption.
  - apply HQ.
  - intros z Hz. destruct (q_ports N st Q HQ z Hz) as (A1 & _ & w & A3 & A4 & _ & A6 & A7).
    split; [assumption|]. exists w. repeat (split; [assumption|]). apply J. now apply A7.
  - apply HC.
  - apply HC.
  - unfold all_ports. rewrite filter_flat. apply rtotal_flat.
    intros p Hp. apply in_seq in Hp. assert (Hp' : p < nparts N) by lia. clear Hp.
    specialize (Bal p Hp').
    assert (Cc : forall i k, i < nports (kd N p) -> k < nports (kd N p) ->
       (match kd N p with KHex _ => i / 2 = k / 2 | _ => True end) -> c (p, i) = c (p, k)).
    { intros i k Hi Hk Hu. apply (ci_unit N c HC); try (split; assumption).
      split; [reflexivity|exact Hu]. }
    specialize (Hf p Hp').
    destruct (kd N p) eqn:K; cbn [nports seq map filter] in *.
    + rewrite (Cc 1 0) by (lia || exact I). destruct (c (p, 0)); [|reflexivity].
      unfold rtotal, s, kind_of. cbn [map fold_right fst snd]. rewrite K. cbn. rewrite Bal. lra.
    + rewrite (Cc 1 0) by (lia || exact I). destruct (c (p, 0)); [|reflexivity].
      unfold rtotal, s, kind_of. cbn [map fold_right fst snd]. rewrite K. cbn.
      destruct Bal as [-> ->]. lra.
    + rewrite (Cc 1 0) by (lia || reflexivity). rewrite (Cc 3 2) by (lia || reflexivity).
      destruct Bal as (B1 & B2 & _).
      destruct (c (p, 0)), (c (p, 2)); unfold rtotal, s, kind_of; cbn [map fold_right fst snd];
        try rewrite K; cbn; rewrite ?B1, ?B2; lra.
    + rewrite (Cc 1 0), (Cc 2 0) by (lia || exact I). destruct (c (p, 0)); [|reflexivity].
      unfold rtotal, s, kind_of. cbn [map fold_right fst snd]. rewrite K. cbn. lra.
    + rewrite (Cc 1 0), (Cc 2 0) by (lia || exact I). destruct (c (p, 0)); [|reflexivity].
      unfold rtotal, s, kind_of. cbn [map fold_right fst snd]. rewrite K.
      destruct Bal as [B1 B2]. specialize (Hf eq_refl).
      assert (E : (q (p, 0%nat) + q (p, 1%nat) = q (p, 2%nat))%R).
      { rewrite B1, B2. rewrite <- Rmult_plus_distr_r, Hf. lra. }
      destruct mix; cbn; lra.
    + rewrite (Cc 1 0), (Cc 2 0) by (lia || exact I). destruct (c (p, 0)); [|reflexivity].
      unfold rtotal, s, kind_of. cbn [map fold_right fst snd]. rewrite K. cbn.
      destruct Bal as [B1 B2]. specialize (Hf eq_refl).
      assert (E : (q (p, 0%nat) + q (p, 1%nat) = - q (p, 2%nat))%R).
      { rewrite B1, B2. replace (m (fcell N p + 1)%nat) with (1 - m (fcell N p))%R by lra. ring. }
      lra.
    + replace (filter c (map (pair p) (seq 0 n))) with (@nil port); [reflexivity|].
      clear -HC K. symmetry. induction (seq 0 n) as [|i l IH]; [reflexivity|]. cbn.
      destruct (c (p, i)) eqn:E; [exfalso; now apply (ci_hub N c HC (p, i) comp n E)|exact IH].
  - lia.
Qed.

(** C85: when the loops over the remaining parts have ended, a storage or branched
    pipe all of whose ports but one end on a boundary condition are solved balances. *)
Theorem C85_hub_partial : forall N sched st m m' p b n i, buildable N -> inside N sched ->
  topology N sched = Done st -> exhausted N st = true -> run_net (out st) m = Some m' ->
  p < nparts N -> kd N p = KHub b n -> i < n -> link N (p, i) = None ->
  (forall k, k < n -> k <> i -> is_solved st (p, k) = true) ->
  fold_right Rplus 0%R (map (fun k => flow N st m' (p, k)) (seq 0 n)) = 0%R.
Proof.
  intros N sched st m m' p b n i B F T E R Hp K Hi L So.
  pose proof (i_wf N st (accepted_inv N sched st B F T)) as W.
  pose proof (C83_balance N sched st m m' B F T R p Hp) as Bal. cbn zeta in Bal. rewrite K in Bal.
  apply Bal. exists i. split; [assumption|]. split; [assumption|].
  destruct (is_solved st (p, i)) eqn:Si; [reflexivity|exfalso].
  assert (Ln : length (solved st p) = n - 1).
  { destruct (W p) as [Nd Bd].
    assert (Ni : ~ In i (solved st p)) by (intro X; apply solved_in in X; congruence).
    assert (L1 : length (i :: solved st p) <= length (seq 0 n)).
    { apply NoDup_incl_length; [now constructor|]. intros k [<-|Hk]; [apply in_seq; lia|].
      apply in_seq. pose proof (Bd k Hk) as X. rewrite K in X. cbn in X. lia. }
    assert (L2 : length (seq 0 n) <= length (i :: solved st p)).
    { apply NoDup_incl_length; [apply seq_NoDup|]. intros k Hk. apply in_seq in Hk.
      destruct (Nat.eq_dec k i) as [->|Ne]; [now left|right]. apply solved_in. apply So; lia. }
    rewrite seq_length in *. cbn [length] in *. lia. }
  unfold exhausted in E. rewrite forallb_forall in E.
  specialize (E p ltac:(apply in_seq; lia)). unfold candidate, breaks in E. rewrite K in E.
  unfold open in E. rewrite K in E. cbn [nports] in E. rewrite Ln in E.
  replace (n - (n - 1)) with 1 in E by lia. discriminate.
Qed.

(** ** Examples *)
Definition accepts (N : design) (sched : list nat) : bool :=
  match topology N sched with Done _ => true | _ => false end.
Lemma accepts_done N sched : accepts N sched = true -> exists st, topology N sched = Done st.
Proof. unfold accepts. destruct (topology N sched); [eauto|discriminate..]. Qed.
Definition relations (N : design) (sched : list nat) : list entry :=
  match topology N sched with Done st => out st | _ => [] end.
Definition views (N : design) (sched : list nat) (p : nat) : option addr :=
  match topology N sched with Done st => view st p | _ => None end.

(** A heating circuit (pump 0, heat exchanger 1, connector 2, boiler 3, mixing
    valve 4) whose heat exchanger is driven by pump 5. *)
Definition heating : design :=
  built [KPump; KHex true; KConn; KPipe; KValve true; KPump]
        [((0, 0), (4, 2)); ((4, 0), (3, 1)); ((3, 0), (2, 2)); ((4, 1), (2, 1));
         ((2, 0), (1, 1)); ((1, 0), (0, 1)); ((5, 1), (1, 2)); ((1, 3), (5, 0))] [].
Definition heating_m (a : addr) : R :=
  (if a =? 0 then 6 else if a =? 45 then 1/4 else if a =? 46 then 3/4
   else if a =? 50 then 4 else 0)%R.
Definition heating_phi (x : port) : R :=
  match x with
  | (0, _) | (1, 0) | (1, 1) | (2, 0) | (4, 2) => 6
  | (2, 1) => - (9/2) | (2, 2) => - (3/2) | (3, _) | (4, 0) => 3/2 | (4, 1) => 9/2
  | _ => 4
  end%R.

Lemma heating_ok : buildable heating.
Proof. apply built_ok; reflexivity. Qed.

Lemma heating_accepted : exists st, topology heating [] = Done st.
Proof. apply accepts_done. vm_compute. reflexivity. Qed.

Ltac links_cases H :=
  apply links_in in H; cbn [both app map fst snd] in H;
  repeat (destruct H as [H|H]; [injection H as <- <-|]); [..|destruct H].

Lemma heating_consistent : consistent heating heating_m heating_phi.
Proof.
  constructor.
  - intros x y _ H. change (link heating) with (links
      [((0, 0), (4, 2)); ((4, 0), (3, 1)); ((3, 0), (2, 2)); ((4, 1), (2, 1));
         ((2, 0), (1, 1)); ((1, 0), (0, 1)); ((5, 1), (1, 2)); ((1, 3), (5, 0))]) in H.
    links_cases H; cbn; lra.
  - intros p Hp K. do 6 (destruct p as [|p]; [cbn in K; try discriminate; cbn; try lra|]). cbn in Hp. lia.
  - intros p i Hp K Hi. do 6 (destruct p as [|p]; [cbn in K; try discriminate; cbn; try lra|]). cbn in Hp. lia.
  - intros p b Hp K. do 6 (destruct p as [|p]; [cbn in K; try discriminate;
      try (cbn; split; [lra|split; [lra|discriminate]])|]). cbn in Hp. lia.
  - intros p Hp K. do 6 (destruct p as [|p]; [cbn in K; try discriminate; cbn; try lra|]). cbn in Hp. lia.
  - intros p b i Hp K Hi. do 6 (destruct p as [|p]; [cbn in K; try discriminate;
      destruct i as [|[|]]; try lia; cbn; try lra|]). cbn in Hp. lia.
  - intros p i Hp K. do 6 (destruct p as [|p]; [cbn in K; try discriminate|]). cbn in Hp. lia.
  - intros p b n Hp K. do 6 (destruct p as [|p]; [cbn in K; try discriminate|]). cbn in Hp. lia.
Qed.

Example C82_heating : exists st m', topology heating [] = Done st
  /\ run_net (out st) heating_m = Some m'
  /\ flow heating st m' (2, 0) = 6%R /\ flow heating st m' (3, 0) = (3/2)%R
  /\ flow heating st m' (1, 2) = 4%R.
Proof.
  destruct heating_accepted as [st T]. exists st.
  destruct (C82_physical heating [] st heating_m heating_phi heating_ok (Forall_nil _) T
              heating_consistent) as (m' & R & _ & H & _).
  - intros p i Hp K. do 6 (destruct p as [|p]; [cbn in K; try discriminate|]). cbn in Hp. lia.
  - exists m'. split; [assumption|]. split; [assumption|].
    split; [|split]; (etransitivity; [apply H; [split; cbn; lia|cbn; discriminate]|cbn; lra]).
Qed.

Example C81_heating : length (relations heating []) = 10
  /\ length (essential (relations heating [])) = 8.
Proof. vm_compute. auto. Qed.

(** The circuit of pump 0. *)
Definition heating_c (x : port) : bool :=
  match x with (5, _) | (1, 2) | (1, 3) => false | (p, _) => p <? 6 end.

Lemma heating_circuit : circuit heating heating_c.
Proof.
  constructor.
  - intros x y _ H. change (link heating) with (links
      [((0, 0), (4, 2)); ((4, 0), (3, 1)); ((3, 0), (2, 2)); ((4, 1), (2, 1));
         ((2, 0), (1, 1)); ((1, 0), (0, 1)); ((5, 1), (1, 2)); ((1, 3), (5, 0))]) in H.
    links_cases H; reflexivity.
  - intros [p i] [q k] [V1 V2] [V3 V4] [E U]. cbn in E. subst q. cbn [fst snd] in *.
    do 6 (destruct p as [|p]; [cbn in V2, V4; try reflexivity;
      destruct i as [|[|[|[|i]]]], k as [|[|[|[|k]]]]; try lia; cbn in U; try discriminate;
      reflexivity|]).
    cbn in V1. lia.
  - intros [p i] [V1 V2] _. cbn [fst snd] in *.
    do 6 (destruct p as [|p]; [cbn in V2; destruct i as [|[|[|[|i]]]]; try lia;
      vm_compute; discriminate|]).
    cbn in V1. lia.
  - intros x H. change (link heating) with (links
      [((0, 0), (4, 2)); ((4, 0), (3, 1)); ((3, 0), (2, 2)); ((4, 1), (2, 1));
         ((2, 0), (1, 1)); ((1, 0), (0, 1)); ((5, 1), (1, 2)); ((1, 3), (5, 0))]) in H.
    apply links_in in H; cbn [both app map fst snd] in H.
    repeat (destruct H as [H|H]; [congruence|]). destruct H.
  - intros [p i] b n H. cbn [fst]. do 6 (destruct p as [|p]; [cbn; discriminate|]). discriminate.
  - intros p b i _ E. discriminate.
Qed.

Example C84_heating :
  2 * count heating heating_c k_pump + count heating heating_c k_valve
  <= count heating heating_c k_conn + 2.
Proof. vm_compute. lia. Qed.

(** Two valve pipes in parallel: 1 splits, 2 joins, both controlled within
    limits other than zero. *)
Definition parallel : design :=
  {| kd := fun p => nth p [KPump; KPValve; KPValve] KPipe; nparts := 3;
     link := links [((0, 0), (1, 2)); ((1, 0), (2, 0)); ((1, 1), (2, 1)); ((2, 2), (0, 1))];
     dcell := fun p => 10 * p; fcell := fun p => 10 * p + 5;
     lims := fun p => if p =? 0 then None else Some (1/100, 99/100)%R;
     numeric := fun _ => true; external := fun p => mem_nat p [] |}.

Lemma parallel_ok : buildable parallel.
Proof.
  assert (B : buildable (without_limits parallel)) by (apply built_ok; reflexivity).
  destruct B. constructor; assumption.
Qed.

Lemma parallel_accepted : exists st, topology parallel [] = Done st
  /\ out st = relations (without_limits parallel) [].
Proof.
  rewrite topology_limits.
  - destruct (accepts_done (without_limits parallel) []) as [st T]; [vm_compute; reflexivity|].
    exists st. split; [assumption|]. unfold relations. now rewrite T.
  - intros p l u. cbn. destruct (p =? 0); [discriminate|]. intro H. injection H as <- <-. lra.
Qed.

Lemma parallel_run (m : mem) : (m 25%nat <> 0)%R -> exists m', forall st, topology parallel [] = Done st ->
  run_net (out st) m = Some m'
  /\ flow parallel st m' (1, 1) = (m 0%nat * m 16%nat)%R
  /\ flow parallel st m' (2, 1) = (- (m 0%nat * m 15%nat) * m 26%nat / m 25%nat)%R.
Proof.
  intro Nz.
  set (m2 := fun a : addr => (if a =? 12 then - m 0%nat else if a =? 10 then m 0%nat * m 15%nat
    else if a =? 20 then - (m 0%nat * m 15%nat)
    else if a =? 21 then - (m 0%nat * m 15%nat) * m 26%nat / m 25%nat
    else if a =? 11 then m 0%nat * m 16%nat
    else if a =? 22 then (m 0%nat * m 15%nat) / m 25%nat else m a)%R).
  exists m2. intros st T. destruct parallel_accepted as (st' & T' & O).
  assert (st' = st) by congruence. subst st'.
  pose proof (accepted_inv parallel [] st parallel_ok (Forall_nil _) T) as Iv.
  assert (Fl : forall p i, p = 1 \/ p = 2 -> flow parallel st m2 (p, i) = m2 (10 * p + i)).
  { intros p i Hp. unfold flow, addr_of. cbn [fst].
    rewrite (view_none parallel st p Iv) by (destruct Hp as [-> | ->]; discriminate).
    destruct Hp as [-> | ->]; reflexivity. }
  split; [|rewrite !Fl by auto; split; reflexivity].
  rewrite run_essential. apply run_complete.
  - apply Iv.
  - rewrite O. intros e He. apply essential_in in He. vm_compute in He.
    repeat (destruct He as [<-|He]); [..|destruct He]; constructor; unfold total, m2; cbn; try lra;
      try (field; assumption); try assumption.
  - rewrite O. intros a Ha. vm_compute in Ha. unfold m2.
    repeat (match goal with |- context [a =? ?k] =>
      destruct (Nat.eqb_spec a k); [exfalso; apply Ha; subst; tauto|] end). reflexivity.
Qed.

(** The code violates C84: two valve pipes in parallel are accepted; unless both
    are set alike, the two ends of a connection show different flows. *)
Theorem C84_parallel_refuted : exists st, topology parallel [] = Done st
  /\ forall m, (m 25%nat <> 0)%R ->
     (m 15%nat + m 16%nat = 1)%R -> (m 25%nat + m 26%nat = 1)%R ->
     exists m', run_net (out st) m = Some m'
     /\ (joined parallel st m' (1, 1) (2, 1) <-> (m 0%nat = 0 \/ m 15%nat = m 25%nat)%R).
Proof.
  destruct parallel_accepted as (st & T & _). exists st. split; [assumption|].
  intros m Nz E1 E2. destruct (parallel_run m Nz) as [m' H]. destruct (H st T) as (R & H1 & H2).
  exists m'. split; [assumption|]. unfold joined. cbn [char kind_of kd parallel nth fst snd].
  cbn [eqb]. rewrite H1, H2.
  replace (m 26%nat) with (1 - m 25%nat)%R by lra. replace (m 16%nat) with (1 - m 15%nat)%R by lra.
  split.
  - intro E. destruct (Req_dec (m 0%nat) 0) as [|N0]; [now left|right].
    assert (X : (m 0%nat * (1 - m 15%nat) * m 25%nat = m 0%nat * m 15%nat * (1 - m 25%nat))%R).
    { rewrite E. field. assumption. }
    apply (Rmult_eq_reg_l (m 0%nat)); [|assumption]. lra.
  - intros [E|E].
    + rewrite E. field. assumption.
    + rewrite E in *. field. assumption.
Qed.

(** Two storages (2, 3) exchanged by two pumps. *)
Definition exchange : design :=
  built [KPump; KPump; KHub true 2; KHub true 2]
        [((0, 0), (2, 0)); ((0, 1), (3, 0)); ((1, 0), (3, 1)); ((1, 1), (2, 1))] [].

(** The code violates C85: the design is accepted, and a storage's port flows
    sum to the difference of the pump flows. *)
Theorem C85_storage_refuted : buildable exchange /\ exists st, topology exchange [] = Done st
  /\ (forall i, i < 2 -> is_solved st (2, i) = true)
  /\ forall m, exists m', run_net (out st) m = Some m'
     /\ (flow exchange st m' (2%nat, 0%nat) + flow exchange st m' (2%nat, 1%nat) = m 10%nat - m 0%nat)%R.
Proof.
  assert (B : buildable exchange) by (apply built_ok; reflexivity). split; [assumption|].
  destruct (accepts_done exchange []) as [st T]; [vm_compute; reflexivity|].
  exists st. split; [assumption|].
  assert (O : out st = relations exchange []) by (unfold relations; now rewrite T).
  assert (So : match topology exchange [] with Done st => solved st 2 | _ => [] end = [0; 1])
    by (vm_compute; reflexivity).
  rewrite T in So. split.
  { intros i Hi. apply solved_in. rewrite So. destruct i as [|[|]]; cbn; auto. lia. }
  intro m.
  pose proof (accepted_inv exchange [] st B (Forall_nil _) T) as Iv.
  set (m2 := fun a : addr => (if a =? 20 then - m 0%nat else if a =? 30 then m 0%nat
    else if a =? 31 then - m 10%nat else if a =? 21 then m 10%nat else m a)%R).
  exists m2. split.
  - rewrite run_essential. apply run_complete.
    + apply Iv.
    + rewrite O. intros e He. apply essential_in in He. vm_compute in He.
      repeat (destruct He as [<-|He]); [..|destruct He]; constructor; unfold total, m2; cbn; lra.
    + rewrite O. intros a Ha. vm_compute in Ha. unfold m2.
      repeat (match goal with |- context [a =? ?k] =>
        destruct (Nat.eqb_spec a k); [exfalso; apply Ha; subst; tauto|] end). reflexivity.
  - unfold flow, addr_of. cbn [fst]. rewrite (view_none exchange st 2 Iv) by discriminate.
    change (m2 20%nat + m2 21%nat = m 10%nat - m 0%nat)%R. unfold m2. cbn. lra.
Qed.

(** A storage with two ports on boundary conditions. *)
Definition half_open : design :=
  built [KPump; KHub true 4; KPipe] [((0, 0), (1, 0)); ((0, 1), (2, 0)); ((2, 1), (1, 1))] [].

(** The code violates C83 for storages: with two or more ports left over they
    are accepted and these ports keep whatever flow they had. *)
Theorem C83_storage_refuted : buildable half_open /\ exists st, topology half_open [] = Done st
  /\ exhausted half_open st = true
  /\ is_solved st (1, 2) = false /\ is_solved st (1, 3) = false
  /\ forall m m', run_net (out st) m = Some m' ->
     flow half_open st m' (1, 2) = m 12 /\ flow half_open st m' (1, 3) = m 13.
Proof.
  assert (B : buildable half_open) by (apply built_ok; reflexivity). split; [assumption|].
  destruct (accepts_done half_open []) as [st T]; [vm_compute; reflexivity|].
  exists st. split; [assumption|].
  assert (O : out st = relations half_open []) by (unfold relations; now rewrite T).
  assert (So : match topology half_open [] with
               | Done st => (exhausted half_open st, is_solved st (1, 2), is_solved st (1, 3))
               | _ => (false, true, true) end = (true, false, false)) by (vm_compute; reflexivity).
  rewrite T in So. injection So as S0 S1 S2.
  split; [assumption|]. split; [assumption|]. split; [assumption|].
  intros m m' R.
  pose proof (accepted_inv half_open [] st B (Forall_nil _) T) as Iv.
  pose proof (C81_ordered half_open [] B (Forall_nil _)) as C. rewrite T in C.
  destruct C as (_ & _ & _ & _ & C). destruct (C m m' R) as [_ Fr].
  unfold flow, addr_of. cbn [fst]. rewrite (view_none half_open st 1 Iv) by discriminate.
  split; (etransitivity; [apply Fr; rewrite O; vm_compute; intuition discriminate|reflexivity]).
Qed.

(** Storage 2 and branched pipe 3, each closed by a boundary condition at port 2. *)
Definition branches : design :=
  built [KPump; KPump; KHub true 3; KHub false 3]
        [((0, 0), (2, 0)); ((0, 1), (3, 0)); ((1, 0), (2, 1)); ((1, 1), (3, 1))] [].

Example C83_branches : buildable branches /\ accepts branches [2; 3] = true
  /\ match topology branches [2; 3] with
     | Done st => (exhausted branches st && is_solved st (2, 2) && is_solved st (3, 2))%bool
     | _ => false end = true
  /\ accepts branches [3; 2] = true /\ accepts branches [] = false.
Proof. split; [apply built_ok; reflexivity|]. vm_compute. auto. Qed.

(** A connector fed by a pump of its own only is refused. *)
Example C81_refused : topology (built [KPump; KConn; KPipe]
  [((0, 1), (1, 0)); ((1, 1), (0, 0)); ((1, 2), (2, 0))] []) [] <> OutOfFuel
  /\ accepts (built [KPump; KPump; KPipe] [((0, 1), (2, 0)); ((2, 1), (1, 0)); ((1, 1), (0, 0))] []) [] = false.
Proof. split; [vm_compute; discriminate|vm_compute; reflexivity]. Qed.

Print Assumptions C81_ordered.
Print Assumptions C82_physical.
Print Assumptions C82_unique.
Print Assumptions C82_schedule.
Print Assumptions C83_balance.
Print Assumptions C83_complete.
Print Assumptions C83_storage_refuted.
Print Assumptions C84_circuit_partial.
Print Assumptions C84_parallel_refuted.
Print Assumptions C85_hub_partial.
Print Assumptions C85_storage_refuted.

(** Relations that divide, and the limits of the opening they divide by. *)
Definition dividing (e : entry) : Prop := In (opid e) [-4; 4; 5]%Z.
Definition guarded (N : design) (e : entry) : Prop := dividing e ->
  exists p i, kd N p = KPValve /\ tgt e = own N (p, i) /\
  forall l u, lims N p = Some (l, u) -> l <> 0%R /\ u <> 0%R.
Definition all_guarded N (r : res topo) : Prop :=
  match r with Done st => Forall (guarded N) (out st) | _ => True end.

Lemma pass_on_safe t c : ~ dividing (pass_on t c).
Proof. unfold dividing, pass_on. cbn [opid]. destruct (p_pos c); cbn; intuition discriminate. Qed.
Lemma answer_guarded N st root sd p i par a : ask N st root sd (p, i) par = Some a ->
  (match par with Some _ => breaks N (record st (p, i) a) p | None => false end = true \/
   limits_ok N p a = true) -> Forall (guarded N) (a_out a).
Proof.
  intros E H. apply Forall_forall. intros e He D.
  unfold ask in E. cbn [fst snd] in E.
  set (con := option_map (cond N st (p, i)) par) in E. cbv zeta in E.
  assert (S1 : forall t c, e = pass_on t c -> False) by (intros t c ->; exact (pass_on_safe _ _ D)).
  assert (S2 : forall z, opid e = z -> ~ In z [-4; 4; 5]%Z -> False) by (intros z <- N1; exact (N1 D)).
  assert (Z0 : ~ In 0%Z [-4; 4; 5]%Z) by (cbn; intuition discriminate).
  assert (Z1 : ~ In (-1)%Z [-4; 4; 5]%Z) by (cbn; intuition discriminate).
  assert (Z3 : ~ In 3%Z [-4; 4; 5]%Z) by (cbn; intuition discriminate).
  destruct (kd N p) as [| |cp|  |mix| |b n] eqn:K.
  - destruct con as [c|]; [|discriminate]. destruct (open N st p =? 2);
      [destruct (p_pos c)|]; injection E as <-; cbn in He; [destruct He| |destruct He].
    destruct He as [<-|[]]. exfalso. eapply S1. reflexivity.
  - destruct par; [destruct (p =? root); [|discriminate]|]; injection E as <-; destruct He.
  - destruct con as [c|]; [|discriminate]. destruct (existsb _ _).
    + destruct cp; injection E as <-; [|destruct He]. destruct He as [<-|[]]. exfalso. apply (S2 0%Z); [reflexivity|exact Z0].
    + injection E as <-. destruct He as [<-|[]]. exfalso. eapply S1. reflexivity.
  - unfold conn_routine in E. destruct (_ =? 1); [|destruct con as [c|]; [|discriminate]]; injection E as <-;
      destruct He as [<-|[]]; exfalso.
    + apply (S2 (-1)%Z); [reflexivity|exact Z1].
    + eapply S1. reflexivity.
  - destruct par as [y|]; [|discriminate]. destruct (_ && _)%bool in E; [discriminate|].
    unfold valve_routine in E. destruct (_ =? 3) in E; [destruct (i =? 2)%nat in E; [|discriminate];
      destruct con as [c|]; [|discriminate]|]; injection E as <-; destruct He as [<-|[]]; exfalso.
    + eapply S1. reflexivity.
    + apply (S2 3%Z); [reflexivity|exact Z3].
  - destruct par as [y|]; [|discriminate]. destruct H as [H|H].
    { unfold breaks in H. rewrite K in H. discriminate. }
    exists p, i. split; [exact K|].
    assert (T : tgt e = own N (p, i)).
    { unfold own, kind_of. cbn [fst snd]. rewrite K. cbn [cellix].
      unfold pvalve_routine in E. destruct (_ =? 3) in E; [destruct con as [c|]; [|discriminate]|
        destruct (_ && _)%bool in E; [|destruct (i =? 2)%nat in E]];
      injection E as <-; destruct He as [<-|[]]; reflexivity. }
    split; [exact T|]. intros l u L. unfold limits_ok in H. rewrite L in H.
    assert (X : existsb (fun e => (Z.eqb (opid e) (-4) || Z.eqb (opid e) 4 || Z.eqb (opid e) 5)%bool) (a_out a) = true).
    { apply existsb_exists. exists e. split; [exact He|]. unfold dividing in D. cbn in D.
      destruct D as [<-|[<-|[<-|[]]]]; reflexivity. }
    rewrite X in H. destruct (Req_EM_T l 0); [discriminate|]. destruct (Req_EM_T u 0); [discriminate|]. split; assumption.
  - unfold hub_routine in E. destruct con as [c|]; [|destruct (_ =? 1) in E; [|discriminate]];
      injection E as <-; destruct He as [<-|[]]; exfalso.
    + eapply S1. reflexivity.
    + apply (S2 (-1)%Z); [reflexivity|exact Z1].
Qed.

Lemma loop_guarded go N root sub p par ch :
  (forall q x j sd st, Forall (guarded N) (out st) -> all_guarded N (go q x j sd st)) ->
  forall l sd st, Forall (guarded N) (out st) -> all_guarded N (ports_loop go N root sub p par ch l sd st).
Proof.
  intros G. induction l as [|i r IH]; intros sd st H; cbn [ports_loop]; [exact H|].
  destruct (is_solved st (p, i)); [apply IH, H|]. destruct (skipped _ _ _); [apply IH, H|].
  cbv zeta. set (sd' := match par with None => _ | Some _ => sd end). clearbody sd'.
  destruct (ask N st root sd' (p, i) par) as [a|] eqn:E; [|exact I].
  destruct (match par with Some _ => _ | None => false end) eqn:B.
  - cbn [all_guarded record out]. apply Forall_app. split; [exact H|].
    apply (answer_guarded _ _ _ _ _ _ _ _ E). left. exact B.
  - destruct (limits_ok N p a) eqn:L; [|exact I]. cbn [negb].
    assert (H2 : Forall (guarded N) (out (record st (p, i) a))).
    { cbn [record out]. apply Forall_app. split; [exact H|].
      apply (answer_guarded _ _ _ _ _ _ _ _ E). right. exact L. }
    destruct (link N (p, i)) as [[q j]|]; [|apply IH, H2].
    destruct (is_solved _ (q, j)); [apply IH, H2|]. destruct (_ && _)%bool; [exact I|].
    destruct (in_hydr _ _ _); [|apply IH, H2].
    specialize (G q (p, i) j sd' _ H2). destruct (go q (p, i) j sd' _); [apply IH, G|exact I|exact I].
Qed.
Lemma recurse_guarded N root sub : forall fuel p par next sd st, Forall (guarded N) (out st) ->
  all_guarded N (recurse fuel N root sub p par next sd st).
Proof.
  induction fuel as [|fuel IH]; intros; cbn [recurse]; [exact I|].
  destruct (in_hydr N st p); [|assumption]. apply loop_guarded; [|assumption]. intros. apply IH. assumption.
Qed.
Lemma fold_guarded N (f : nat -> topo -> res topo) :
  (forall p st, Forall (guarded N) (out st) -> all_guarded N (f p st)) ->
  forall l r, all_guarded N r -> all_guarded N (fold_left (fun r p => bind r (f p)) l r).
Proof.
  intros F. induction l as [|p l IH]; intros r H; [exact H|]. cbn [fold_left]. apply IH.
  destruct r as [st| |]; cbn [bind]; [apply F, H|exact I|exact I].
Qed.

(** Every division in the accepted list of relations is one of a pipe with a valve, and the limits
    of its opening are not zero. *)
Theorem C82_limits : forall N sched st, topology N sched = Done st ->
  forall e, In e (out st) -> In (opid e) [-4; 4; 5]%Z ->
  exists p i, kd N p = KPValve /\ tgt e = own N (p, i) /\
  forall l u, lims N p = Some (l, u) -> l <> 0%R /\ u <> 0%R.
Proof.
  intros N sched st E e He D. unfold topology in E.
  assert (A : all_guarded N (pump_nets N)).
  { unfold pump_nets. apply (fold_guarded N (fun p st => if is_pump N p then recurse (fuel_for N) N p false p None None Suction st else Done st)).
    - intros p s H. destruct (is_pump N p); [apply recurse_guarded, H|exact H].
    - constructor. }
  destruct (pump_nets N) as [s1| |]; cbn [bind] in E; try discriminate.
  assert (B : all_guarded N (sub_nets N sched s1)).
  { unfold sub_nets. apply (fold_guarded N (fun p st => if candidate N st p then recurse (fuel_for N) N p true p None None Sub st else Done st)).
    - intros p s H. destruct (candidate N s p); [apply recurse_guarded, H|exact H].
    - exact A. }
  destruct (sub_nets N sched s1) as [s2| |]; cbn [bind] in E; try discriminate.
  destruct (left_over_ok N s2); [|discriminate]. injection E as <-.
  cbn in B. rewrite Forall_forall in B. apply (B e He D).
Qed.
Lemma parallel_divides : In {| tgt := 21; opid := 5; srcs := [20; 26; 25] |} (relations (without_limits parallel) []).
Proof. vm_compute. tauto. Qed.
Example C82_limits_ex : exists st e, topology parallel [] = Done st /\ In e (out st) /\ opid e = 5%Z /\
  lims parallel 2 = Some (1/100, 99/100)%R.
Proof.
  destruct parallel_accepted as (st & T & O). exists st, {| tgt := 21; opid := 5; srcs := [20; 26; 25] |}.
  split; [exact T|]. split; [rewrite O; exact parallel_divides|]. split; reflexivity.
Qed.
Print Assumptions C82_limits.
