(** Proofs about the topology analyser. *)
From Coq Require Import Reals ZArith List Bool Lra Lia Arith FunctionalExtensionality Permutation.
From Verif Require Import MNet SNet LNet MTopo STopo.
Import ListNotations.
Local Open Scope nat_scope.

(** ** Basics *)
Lemma mem_nat_in i l : mem_nat i l = true <-> In i l.
Proof.
  unfold mem_nat. rewrite existsb_exists. split.
  - intros (j & H & E). apply Nat.eqb_eq in E. now subst.
  - intro H. exists i. split; [assumption|apply Nat.eqb_refl].
Qed.

Lemma mem_nat_not i l : mem_nat i l = false <-> ~ In i l.
Proof.
  rewrite <- mem_nat_in. destruct (mem_nat i l); split; congruence.
Qed.

Definition wf (N : design) (st : topo) : Prop :=
  forall p, NoDup (solved st p) /\ (forall i, In i (solved st p) -> i < nports (kd N p)).

Lemma wf_length N st p : wf N st -> length (solved st p) <= nports (kd N p).
Proof.
  intro W. destruct (W p) as [A B].
  rewrite <- (seq_length (nports (kd N p)) 0). apply NoDup_incl_length; [assumption|].
  intros i Hi. apply in_seq. specialize (B i Hi). lia.
Qed.

Lemma wf_open N st p i : wf N st -> i < nports (kd N p) -> ~ In i (solved st p) ->
  length (solved st p) < nports (kd N p).
Proof.
  intros W Hi Ni. destruct (W p) as [A B].
  assert (L : length (i :: solved st p) <= length (seq 0 (nports (kd N p)))).
  { apply NoDup_incl_length; [now constructor|].
    intros j [<-|Hj]; apply in_seq; [lia|specialize (B j Hj); lia]. }
  rewrite seq_length in L. cbn in L. lia.
Qed.

Lemma wf_full N st p : wf N st -> length (solved st p) = nports (kd N p) ->
  forall i, i < nports (kd N p) -> In i (solved st p).
Proof.
  intros W L i Hi. destruct (in_dec Nat.eq_dec i (solved st p)) as [H|H]; [assumption|].
  pose proof (wf_open N st p i W Hi H). lia.
Qed.

Lemma record_unmarked st x a : a_marks a = false -> a_view a = None -> a_out a = [] ->
  record st x a = st.
Proof.
  intros M V O. destruct st as [s v o]. unfold record. cbn [solved view out].
  rewrite M, V, O, app_nil_r. f_equal.
  - extensionality q. now rewrite andb_false_r.
  - extensionality q. now destruct (q =? fst x).
Qed.

Lemma record_solved st x a y : a_marks a = true ->
  is_solved (record st x a) y = true <-> is_solved st y = true \/ y = x.
Proof.
  intro M. destruct x as [p i], y as [q j]. unfold is_solved, record.
  cbn [solved fst snd]. rewrite M, andb_true_r. rewrite !mem_nat_in.
  destruct (Nat.eqb_spec q p).
  - subst. rewrite in_app_iff. cbn. split; intros [H|H]; try tauto; right.
    + destruct H as [->|[]]. reflexivity.
    + left. congruence.
  - split; [tauto|]. intros [H|H]; [assumption|congruence].
Qed.

(** ** The analyser as a sequence of marked ports *)
Inductive step (N : design) : topo -> topo -> Prop :=
| step_root st p i root sd a :
    valid N (p, i) -> is_solved st (p, i) = false ->
    (is_pump N p = true \/ exists b n, kd N p = KHub b n) ->
    ask N st root sd (p, i) None = Some a -> a_marks a = true ->
    step N st (record st (p, i) a)
| step_in st p i j y root sd a :
    valid N (p, i) -> is_solved st (p, i) = false ->
    valid N y -> is_solved st y = true -> link N (p, j) = Some y ->
    (i = j \/ (is_solved st (p, j) = true /\ breaks N st p = false
               /\ skipped (kd N p) (j / 2) i = false)) ->
    ask N st root sd (p, i) (Some y) = Some a -> a_marks a = true ->
    step N st (record st (p, i) a).

Inductive steps (N : design) : topo -> topo -> Prop :=
| steps_refl st : steps N st st
| steps_cons st st1 st2 : step N st st1 -> steps N st1 st2 -> steps N st st2.

Lemma steps_trans N a b c : steps N a b -> steps N b c -> steps N a c.
Proof. induction 1; [tauto|]. intro. econstructor; eauto. Qed.

Lemma step_steps N a b : step N a b -> steps N a b.
Proof. intro. econstructor; [eassumption|constructor]. Qed.

Lemma step_record N st st' : step N st st' -> exists x a,
  valid N x /\ is_solved st x = false /\ a_marks a = true /\ st' = record st x a.
Proof. intros [? ? ? ? ? ? ? ? ? ? ?|? ? ? ? ? ? ? ? ? ? ? ? ? ? ? ?]; eauto 8. Qed.

Lemma step_wf N st st' : step N st st' -> wf N st -> wf N st'.
Proof.
  intros S W. destruct (step_record _ _ _ S) as ([p i] & a & V & U & M & ->).
  intro q. unfold record. cbn [solved fst snd]. rewrite M, andb_true_r.
  destruct (Nat.eqb_spec q p); [|apply W]. subst q. destruct (W p) as [A B].
  unfold is_solved in U. cbn in U. apply mem_nat_not in U. split.
  - rewrite <- (rev_involutive (solved st p ++ [i])). apply NoDup_rev.
    rewrite rev_app_distr. cbn. constructor.
    + now rewrite <- in_rev.
    + now apply NoDup_rev.
  - intros j Hj. apply in_app_iff in Hj. destruct Hj as [Hj|[<-|[]]]; [now apply B|apply V].
Qed.

Lemma steps_wf N st st' : steps N st st' -> wf N st -> wf N st'.
Proof. induction 1; [tauto|]. intro. apply IHsteps. eapply step_wf; eauto. Qed.

Lemma steps_mono N st st' : steps N st st' -> forall x, is_solved st x = true -> is_solved st' x = true.
Proof.
  induction 1; [tauto|]. intros x Hx. apply IHsteps.
  destruct (step_record _ _ _ H) as (y & a & V & U & M & ->).
  apply record_solved; tauto.
Qed.

(** Number of open ports. *)
Definition nopen (N : design) (st : topo) : nat :=
  fold_right Nat.add 0 (map (open N st) (seq 0 (nparts N))).

Lemma fold_add_lt : forall l (f g : nat -> nat) p, (forall q, In q l -> f q <= g q) ->
  In p l -> f p < g p -> fold_right Nat.add 0 (map f l) < fold_right Nat.add 0 (map g l).
Proof.
  assert (A : forall l (f g : nat -> nat), (forall q, In q l -> f q <= g q) ->
    fold_right Nat.add 0 (map f l) <= fold_right Nat.add 0 (map g l)).
  { induction l as [|q l IH]; intros f g H; cbn; [lia|].
    pose proof (H q (or_introl eq_refl)). specialize (IH f g (fun r Hr => H r (or_intror Hr))). lia. }
  induction l as [|q l IH]; intros f g p H Hp L; cbn; [destruct Hp|].
  pose proof (H q (or_introl eq_refl)).
  assert (H' : forall r, In r l -> f r <= g r) by (intros; apply H; now right).
  destruct Hp as [->|Hp].
  - specialize (A l f g H'). lia.
  - specialize (IH f g p H' Hp L). lia.
Qed.

Lemma step_nopen N st st' : step N st st' -> wf N st -> nopen N st' < nopen N st.
Proof.
  intros S W. destruct (step_record _ _ _ S) as ([p i] & a & V & U & M & ->).
  unfold is_solved in U. cbn in U. apply mem_nat_not in U.
  destruct V as [V1 V2]. cbn in V1, V2.
  pose proof (wf_open N st p i W V2 U) as L.
  unfold nopen. apply fold_add_lt with p.
  - intros q _. unfold open, record. cbn [solved fst]. rewrite M, andb_true_r.
    destruct (q =? p); [|lia]. rewrite app_length. cbn. lia.
  - apply in_seq. lia.
  - unfold open, record. cbn [solved fst snd]. rewrite M, andb_true_r, Nat.eqb_refl.
    rewrite app_length. cbn. lia.
Qed.

Lemma steps_nopen N st st' : steps N st st' -> wf N st -> nopen N st' <= nopen N st.
Proof.
  induction 1; [lia|]. intro W. pose proof (step_nopen _ _ _ H W).
  specialize (IHsteps (step_wf _ _ _ H W)). lia.
Qed.

Lemma fold_add_pos : forall l (f : nat -> nat) p, In p l -> 1 <= f p ->
  1 <= fold_right Nat.add 0 (map f l).
Proof.
  induction l as [|q l IH]; intros f p H L; cbn; [destruct H|].
  destruct H as [->|H]; [lia|]. specialize (IH f p H L). lia.
Qed.

Lemma nopen_pos N st x : wf N st -> valid N x -> is_solved st x = false -> 1 <= nopen N st.
Proof.
  intros W [V1 V2] U. destruct x as [p i]. cbn in V1, V2. unfold is_solved in U. cbn in U.
  apply mem_nat_not in U. pose proof (wf_open N st p i W V2 U).
  unfold nopen. apply fold_add_pos with p; [apply in_seq; lia|]. unfold open. lia.
Qed.

(** ** Every call of the analyser is such a sequence and ends *)
Lemma pump_not_breaks N st p : is_pump N p = true -> breaks N st p = false.
Proof. unfold is_pump, breaks. destruct (kd N p); congruence. Qed.

Lemma ask_marks N st root sd x par a : ask N st root sd x par = Some a ->
  a_marks a = true \/ (is_pump N (fst x) = true /\ par <> None /\ fst x = root
                       /\ a_marks a = false /\ a_view a = None /\ a_out a = []).
Proof.
  unfold ask, is_pump. destruct (kd N (fst x)); intro H.
  - destruct par; cbn in H; [|discriminate].
    destruct (open N st (fst x) =? 2); [destruct (negb _)|]; inversion H; subst; now left.
  - destruct par; [|inversion H; now left].
    destruct (Nat.eqb_spec (fst x) root); inversion H; subst. right. repeat split; congruence.
  - destruct par; cbn in H; [|discriminate]. destruct (existsb _ _).
    + destruct copies; inversion H; subst; now left.
    + inversion H; subst; now left.
  - left. destruct (conn_routine _ _ _); inversion H; now subst.
  - left. destruct par; [|discriminate]. destruct (_ && _)%bool; [discriminate|].
    destruct (valve_routine _ _ _ _); inversion H; now subst.
  - left. destruct par; [|discriminate].
    destruct (pvalve_routine _ _ _ _); inversion H; now subst.
  - left. destruct (hub_routine _ _ _ _); inversion H; now subst.
Qed.

Definition good (N : design) (st : topo) (r : res topo) : Prop :=
  match r with Done st' => steps N st st' | Raised => True | OutOfFuel => False end.

Lemma good_trans N a b r : steps N a b -> good N b r -> good N a r.
Proof. destruct r; cbn; auto. intros; eapply steps_trans; eauto. Qed.

Definition caller (N : design) (root : nat) (go : nat -> port -> nat -> side -> topo -> res topo)
  (bound : nat) : Prop :=
  forall q y j sd st, wf N st -> valid N (q, j) -> valid N y -> link N (q, j) = Some y ->
    is_solved st y = true -> is_solved st (q, j) = false ->
    (is_pump N q = true -> q = root) ->
    (is_pump N root = true -> solved st root <> []) ->
    nopen N st <= bound -> good N st (go q y j sd st).

Lemma solved_nonempty st p i : is_solved st (p, i) = true -> solved st p <> [].
Proof. unfold is_solved. cbn. intros H E. rewrite E in H. discriminate. Qed.

Lemma nonempty_mono N st st' p : steps N st st' -> solved st p <> [] -> solved st' p <> [].
Proof.
  intros S H. destruct (solved st p) as [|i l] eqn:E; [congruence|].
  apply solved_nonempty with i. apply (steps_mono N _ _ S). unfold is_solved. cbn.
  rewrite E. apply mem_nat_in. now left.
Qed.

Lemma steps_breaks N st st' p : wf N st -> steps N st st' -> breaks N st p = false ->
  breaks N st' p = false.
Proof.
  intros W S H.
  assert (L : open N st' p <= open N st p).
  { assert (I : incl (solved st p) (solved st' p)).
    { intros i Hi. apply mem_nat_in. apply (steps_mono N _ _ S (p, i)).
      unfold is_solved. now apply mem_nat_in. }
    pose proof (NoDup_incl_length (proj1 (W p)) I). unfold open. lia. }
  unfold breaks in *. destruct (kd N p); try reflexivity;
    apply Nat.ltb_ge in H; apply Nat.ltb_ge; lia.
Qed.

Lemma loop_in N root sub go bound p y j : buildable N -> caller N root go bound ->
  is_pump N p = false -> valid N y -> link N (p, j) = Some y -> p < nparts N ->
  forall l st sd, wf N st -> is_solved st y = true ->
    (forall i, In i l -> i < nports (kd N p)) ->
    ((exists r, l = j :: r) /\ is_solved st (p, j) = false
     \/ is_solved st (p, j) = true /\ breaks N st p = false) ->
    (is_pump N root = true -> solved st root <> []) ->
    nopen N st <= S bound ->
    good N st (ports_loop go N root sub p (Some y) (j / 2) l sd st).
Proof.
  intros B C NP Vy Ly Hp. induction l as [|i r IH]; intros st sd W Sy Hl Hj Hr Hn; cbn [ports_loop].
  - constructor.
  - destruct (is_solved st (p, i)) eqn:Si.
    + apply IH; try assumption; [intros; apply Hl; now right|].
      destruct Hj as [[[r' E] U]|]; [|tauto]. injection E as -> ->. congruence.
    + destruct (skipped (kd N p) (j / 2) i) eqn:Sk.
      * apply IH; try assumption; [intros; apply Hl; now right|].
        destruct Hj as [[[r' E] U]|]; [|tauto]. injection E as -> ->.
        unfold skipped in Sk. destruct (kd N p); try discriminate.
        rewrite Nat.eqb_refl in Sk. discriminate.
      * destruct (ask N st root sd (p, i) (Some y)) as [a|] eqn:A; [|exact I].
        destruct (ask_marks _ _ _ _ _ _ _ A) as [M|(P & _)]; [|cbn in P; congruence].
        assert (V : valid N (p, i)) by (split; [assumption|apply Hl; now left]).
        assert (S : step N st (record st (p, i) a)).
        { eapply step_in with (j := j) (y := y); try eassumption.
          destruct Hj as [[[r' E] U]|[U E]]; [left; congruence|right; auto]. }
        set (st1 := record st (p, i) a) in *.
        apply good_trans with st1; [now apply step_steps|].
        pose proof (step_wf _ _ _ S W) as W1.
        pose proof (step_nopen _ _ _ S W) as Hn1.
        pose proof (step_steps _ _ _ S) as SS.
        assert (Sy1 : is_solved st1 y = true) by (apply (steps_mono _ _ _ SS); assumption).
        assert (Hr1 : is_pump N root = true -> solved st1 root <> [])
          by (intro; apply (nonempty_mono _ _ _ _ SS); auto).
        assert (Sj1 : is_solved st1 (p, j) = true).
        { destruct Hj as [[[r' E] U]|[U E]].
          - injection E as -> ->. apply record_solved; auto.
          - apply (steps_mono _ _ _ SS); assumption. }
        destruct (breaks N st1 p) eqn:Br; [constructor|].
        destruct (negb (limits_ok N p a)); [exact I|].
        assert (K : forall st2, steps N st1 st2 ->
                  good N st2 (ports_loop go N root sub p (Some y) (j / 2) r sd st2)).
        { intros st2 S2. apply IH.
          - eapply steps_wf; eauto.
          - eapply steps_mono; eauto.
          - intros; apply Hl; now right.
          - right. split; [eapply steps_mono; eauto|eapply steps_breaks; eauto].
          - intro; eapply nonempty_mono; eauto.
          - pose proof (steps_nopen _ _ _ S2 W1). lia. }
        destruct (link N (p, i)) as [[q j']|] eqn:L; [|apply K; constructor].
        destruct (is_solved st1 (q, j')) eqn:Sq; [apply K; constructor|].
        destruct (is_pump N q && negb (q =? root))%bool eqn:Pq; [exact I|].
        destruct (in_hydr N st1 q); [|apply K; constructor].
        assert (G : good N st1 (go q (p, i) j' sd st1)).
        { apply C; try assumption.
          - eapply b_valid; eauto.
          - eapply b_sym; eauto.
          - apply record_solved; auto.
          - intro H. rewrite H in Pq. cbn in Pq. destruct (Nat.eqb_spec q root); [assumption|discriminate].
          - lia. }
        destruct (go q (p, i) j' sd st1) as [st2| |]; cbn in G; [|exact I|destruct G].
        apply good_trans with st2; [assumption|]. now apply K.
Qed.

Lemma loop_pump N root sub go p y j st : is_pump N p = true -> p = root ->
  link N (p, j) = Some y -> is_solved st y = true ->
  forall l sd, (forall i, In i l -> i = j \/ is_solved st (p, i) = true) ->
  ports_loop go N root sub p (Some y) (j / 2) l sd st = Done st.
Proof.
  intros P E L Sy. induction l as [|i r IH]; intros sd H; cbn [ports_loop]; [reflexivity|].
  assert (IHr : forall sd, ports_loop go N root sub p (Some y) (j / 2) r sd st = Done st).
  { intro; apply IH. intros; apply H; now right. }
  destruct (is_solved st (p, i)) eqn:Si; [apply IHr|].
  destruct (skipped (kd N p) (j / 2) i); [apply IHr|].
  destruct (H i (or_introl eq_refl)) as [->|]; [|congruence].
  unfold ask. cbn [fst snd]. unfold is_pump in P. destruct (kd N p) eqn:K; try discriminate.
  rewrite E, Nat.eqb_refl. rewrite record_unmarked by reflexivity.
  unfold breaks. rewrite <- E, K. cbn [limits_ok a_out existsb negb]. unfold limits_ok. cbn [a_out existsb negb].
  rewrite L. destruct y as [q j']. rewrite Sy. rewrite E. rewrite E in IHr. apply IHr.
Qed.

Lemma loop_root N root sub go bound : buildable N -> caller N root go bound ->
  root < nparts N ->
  (is_pump N root = true \/ exists b n, kd N root = KHub b n) ->
  forall l st sd, wf N st ->
    (forall i, In i l -> i < nports (kd N root)) ->
    nopen N st <= S bound ->
    good N st (ports_loop go N root sub root None 0 l sd st).
Proof.
  intros B C Hp Hk. induction l as [|i r IH]; intros st sd W Hl Hn; cbn [ports_loop].
  - constructor.
  - destruct (is_solved st (root, i)) eqn:Si.
    { apply IH; try assumption. intros; apply Hl; now right. }
    destruct (skipped (kd N root) 0 i) eqn:Sk.
    { apply IH; try assumption. intros; apply Hl; now right. }
    match goal with |- context [ask N st root ?s _ _] => set (sd1 := s) end.
    destruct (ask N st root sd1 (root, i) None) as [a|] eqn:A; [|exact I].
    destruct (ask_marks _ _ _ _ _ _ _ A) as [M|(_ & P & _)]; [|congruence].
    assert (V : valid N (root, i)) by (split; [assumption|apply Hl; now left]).
    assert (S : step N st (record st (root, i) a)) by (eapply step_root; eassumption).
    set (st1 := record st (root, i) a) in *.
    apply good_trans with st1; [now apply step_steps|].
    pose proof (step_wf _ _ _ S W) as W1.
    pose proof (step_nopen _ _ _ S W) as Hn1.
    destruct (negb (limits_ok N root a)); [exact I|].
    assert (K : forall st2, steps N st1 st2 ->
              good N st2 (ports_loop go N root sub root None 0 r sd1 st2)).
    { intros st2 S2. apply IH.
      - eapply steps_wf; eauto.
      - intros; apply Hl; now right.
      - pose proof (steps_nopen _ _ _ S2 W1). lia. }
    destruct (link N (root, i)) as [[q j']|] eqn:L; [|apply K; constructor].
    destruct (is_solved st1 (q, j')) eqn:Sq; [apply K; constructor|].
    destruct (is_pump N q && negb (q =? root))%bool eqn:Pq; [exact I|].
    destruct (in_hydr N st1 q); [|apply K; constructor].
    assert (Sr : is_solved st1 (root, i) = true) by (apply record_solved; auto).
    assert (G : good N st1 (go q (root, i) j' sd1 st1)).
    { apply C; try assumption.
      - eapply b_valid; eauto.
      - eapply b_sym; eauto.
      - intro H. rewrite H in Pq. cbn in Pq. destruct (Nat.eqb_spec q root); [assumption|discriminate].
      - intros _. now apply solved_nonempty with i.
      - lia. }
    destruct (go q (root, i) j' sd1 st1) as [st2| |]; cbn in G; [|exact I|destruct G].
    apply good_trans with st2; [assumption|]. now apply K.
Qed.

Lemma port_order_in n next i : (forall j, next = Some j -> j < n) ->
  In i (port_order n next) -> i < n.
Proof.
  intros H. unfold port_order. destruct next as [j|].
  - intros [<-|Hi]; [now apply H|]. apply filter_In in Hi. destruct Hi as [Hi _].
    apply in_seq in Hi. lia.
  - intro Hi. apply in_seq in Hi. lia.
Qed.

Lemma recurse_caller N root sub : buildable N -> forall fuel,
  caller N root (fun q x j => recurse fuel N root sub q (Some x) (Some j)) fuel.
Proof.
  intros B. induction fuel as [|fuel IH]; intros q y j sd st W V Vy L Sy Sq Pq Hr Hn.
  - pose proof (nopen_pos N st (q, j) W V Sq). lia.
  - cbn [recurse]. destruct (in_hydr N st q); [|constructor].
    assert (Ho : forall i, In i (port_order (nports (kd N q)) (Some j)) -> i < nports (kd N q)).
    { intros i. apply port_order_in. intros k E. injection E as <-. apply V. }
    destruct (is_pump N q) eqn:P.
    + rewrite (loop_pump N root sub _ q y j st P (Pq eq_refl) L Sy); [constructor|].
      intros i Hi. destruct (Nat.eq_dec i j) as [|Ne]; [now left|right].
      specialize (Ho i Hi). destruct V as [V1 V2]. cbn in V1, V2.
      rewrite (Pq eq_refl) in *. specialize (Hr P).
      unfold is_pump in P. destruct (kd N root) eqn:K; try discriminate.
      unfold is_solved in *. cbn in *. apply mem_nat_in. apply mem_nat_not in Sq.
      destruct (W root) as [_ W2]. rewrite K in W2. cbn in W2.
      destruct (solved st root) as [|k r]; [congruence|].
      pose proof (W2 k (or_introl eq_refl)).
      destruct (Nat.eq_dec k j) as [->|]; [exfalso; apply Sq; now left|].
      left. lia.
    + apply loop_in with (bound := fuel); try assumption; [apply V|].
      left. split; [eexists; reflexivity|assumption].
Qed.

Lemma recurse_root N root sub sd st : buildable N -> root < nparts N ->
  (is_pump N root = true \/ exists b n, kd N root = KHub b n) -> wf N st ->
  forall fuel, nopen N st <= fuel ->
  good N st (recurse (S fuel) N root sub root None None sd st).
Proof.
  intros B Hp Hk W fuel Hn. cbn [recurse]. destruct (in_hydr N st root); [|constructor].
  apply loop_root with (bound := fuel); try assumption.
  - now apply recurse_caller.
  - intros i. apply port_order_in. discriminate.
  - lia.
Qed.

Lemma nopen_count N st : nopen N st <= count_ports N.
Proof.
  unfold nopen, count_ports. induction (seq 0 (nparts N)) as [|p l IH]; cbn; [lia|].
  unfold open at 1. lia.
Qed.

Lemma start_wf N : wf N (start N).
Proof.
  intro p. unfold start. cbn [solved]. destruct (kd N p) eqn:K.
  all: try (split; [constructor|intros i []]).
  destruct (external N p).
  - split; [constructor; [cbn; intuition lia|repeat constructor; tauto]|].
    intros i [<-|[<-|[]]]; cbn; lia.
  - split; [constructor|intros i []].
Qed.

Lemma fold_bind_raised {A} (f : nat -> A -> res A) : forall l,
  fold_left (fun r p => bind r (f p)) l Raised = Raised.
Proof. induction l; cbn; auto. Qed.

Lemma fold_good N (f : nat -> topo -> res topo) (P : nat -> Prop) :
  (forall p st, P p -> wf N st -> good N st (f p st)) ->
  forall l st, Forall P l -> wf N st ->
  good N st (fold_left (fun r p => bind r (f p)) l (Done st)).
Proof.
  intros H. induction l as [|p l IH]; intros st F W; cbn [fold_left]; [constructor|].
  inversion F; subst. pose proof (H p st H2 W) as G. cbn [bind].
  destruct (f p st) as [st1| |]; cbn in G; [|now rewrite fold_bind_raised|destruct G].
  apply good_trans with st1; [assumption|]. apply IH; [assumption|eapply steps_wf; eauto].
Qed.

Lemma pump_nets_good N : buildable N -> good N (start N) (pump_nets N).
Proof.
  intro B. unfold pump_nets. apply fold_good with (P := fun p => p < nparts N).
  - intros p st Hp W. destruct (is_pump N p) eqn:P; [|constructor].
    apply recurse_root; auto. pose proof (nopen_count N st). lia.
  - apply Forall_forall. intros p Hp. apply in_seq in Hp. lia.
  - apply start_wf.
Qed.

Lemma candidate_hub N st p : candidate N st p = true -> exists b n, kd N p = KHub b n.
Proof.
  unfold candidate, breaks. destruct (kd N p); try (cbn; discriminate); eauto.
  intro H. apply andb_prop in H. destruct H as [H1 H2].
  apply Nat.ltb_lt in H1. apply Nat.eqb_eq in H2. lia.
Qed.

Lemma sub_nets_good N sched st : buildable N -> wf N st ->
  Forall (fun p => p < nparts N) sched -> good N st (sub_nets N sched st).
Proof.
  intros B W F. unfold sub_nets. apply fold_good with (P := fun p => p < nparts N); try assumption.
  intros p st1 Hp W1. destruct (candidate N st1 p) eqn:P; [|constructor].
  apply recurse_root; auto; [right; eapply candidate_hub; eauto|].
  pose proof (nopen_count N st1). lia.
Qed.

Lemma topology_good N sched : buildable N -> Forall (fun p => p < nparts N) sched ->
  good N (start N) (topology N sched).
Proof.
  intros B F. unfold topology. pose proof (pump_nets_good N B) as G.
  destruct (pump_nets N) as [st| |]; cbn [bind good] in *; auto.
  assert (W : wf N st) by (eapply steps_wf; [eassumption|apply start_wf]).
  pose proof (sub_nets_good N sched st B W F) as G2.
  destruct (sub_nets N sched st) as [st2| |]; cbn [bind good] in *; auto.
  destruct (left_over_ok N st2); cbn; [|exact I]. eapply steps_trans; eauto.
Qed.
