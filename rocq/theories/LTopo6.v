(** Proofs about the topology analyser: in a closed circuit with as many
    connectors as valves every connection shows one flow. *)
From Coq Require Import Reals ZArith List Bool Lra Lia Arith FunctionalExtensionality Permutation.
From Verif Require Import MNet SNet LNet MTopo STopo LTopo LTopo2 LTopo3 LTopo4.
Import ListNotations.
Local Open Scope nat_scope.

(** Number of ports of a part that copy a connected port. *)
Definition copies_of (k : kind) : nat :=
  match k with KPipe | KValve _ | KPValve => 1 | KConn => 2 | _ => 0 end.

Record passed_on (N : design) (st : topo) (Q : list port) : Prop := {
  q_nodup : NoDup Q;
  q_ports : forall x, In x Q -> valid N x /\ is_solved st x = true
    /\ exists y, link N x = Some y /\ valid N y /\ is_solved st y = true /\ ~ In y Q
       /\ (forall m, all_sat m (out st) -> joined N st m x y);
  q_first : forall p i, In i (firstn (copies_of (kd N p)) (solved st p)) -> In (p, i) Q;
  q_hex : forall p b i, kd N p = KHex b -> is_solved st (p, i) = true ->
    ~ freeport N (p, i) -> exists k, k / 2 = i / 2 /\ In (p, k) Q }.

Lemma view_none N st p : inv N st -> kd N p <> KPipe -> view st p = None.
Proof.
  intros I K. destruct (view st p) as [a|] eqn:E; [|reflexivity].
  now destruct (i_view N st I _ _ E).
Qed.

Lemma addr_stable N st x a z : inv N st -> is_solved st x = false ->
  shape N st x a -> is_solved st z = true -> addr_of N (record st x a) z = addr_of N st z.
Proof.
  intros I U Sh Sz. unfold addr_of, record. cbn [view].
  destruct (Nat.eqb_spec (fst z) (fst x)) as [E|]; [|reflexivity].
  inversion Sh as [| | |y K Nil L Vy Sy P| | | | | | |]; subst; cbn [a_view nothing emit]; try reflexivity.
  exfalso. destruct z as [q k]. cbn in E. subst q. apply solved_in in Sz. rewrite Nil in Sz. destruct Sz.
Qed.

Lemma firstn_snoc (l : list nat) i n : firstn n (l ++ [i])
  = if length l <? n then l ++ [i] else firstn n l.
Proof.
  rewrite firstn_app. destruct (Nat.ltb_spec (length l) n) as [H|H].
  - rewrite firstn_all2 by lia. f_equal. destruct (n - length l) eqn:E; [lia|]. cbn.
    now rewrite firstn_nil.
  - replace (n - length l) with 0 by lia. cbn. apply app_nil_r.
Qed.

Lemma joined_pass N st st' m x y : addr_of N st' x = own N x -> addr_of N st' y = addr_of N st y ->
  satisfies m (pass_on (own N x) (cond N st x y)) -> joined N st' m x y.
Proof.
  intros Ex Ey S. apply pass_on_sat in S. unfold joined, flow. rewrite Ex, Ey, S.
  unfold passed, cond. cbn. now destruct (Bool.eqb _ _).
Qed.

Lemma passed_on_step N st st' : buildable N -> inv N st -> step N st st' ->
  (exists Q, passed_on N st Q) -> exists Q, passed_on N st' Q.
Proof.
  intros B I S [Q HQ].
  destruct (step_shape N st st' B (i_wf N st I) (i_valve N st I) S) as (x & a & V & U & M & -> & Sh).
  clear S. pose proof (addr_stable N st x a) as AS.
  set (st' := record st x a) in *.
  assert (New : forall z, is_solved st' z = true -> is_solved st z = true \/ z = x)
    by (intros z Hz; apply record_solved in Hz; auto).
  assert (Mono : forall z, is_solved st z = true -> is_solved st' z = true)
    by (intros z Hz; apply record_solved; auto).
  assert (Sx : is_solved st' x = true) by (apply record_solved; auto).
  assert (SatO : forall m, all_sat m (out st') -> all_sat m (out st)).
  { intros m Sat e He. apply Sat. unfold st', record. cbn [out]. apply in_app_iff. now left. }
  assert (Jo : forall m z w, is_solved st z = true -> is_solved st w = true ->
               joined N st m z w -> joined N st' m z w).
  { intros m z w Hz Hw. unfold joined, flow. now rewrite !AS. }
  assert (Keep : forall Q', (forall z, In z Q -> In z Q') -> (forall z, In z Q' -> In z Q \/ z = x) ->
     forall z, In z Q -> valid N z /\ is_solved st' z = true
     /\ exists y, link N z = Some y /\ valid N y /\ is_solved st' y = true /\ ~ In y Q'
       /\ (forall m, all_sat m (out st') -> joined N st' m z y)).
  { intros Q' _ HQ' z Hz. destruct (q_ports N st Q HQ z Hz) as (A1 & A2 & y & A3 & A4 & A5 & A6 & A7).
    split; [assumption|]. split; [now apply Mono|]. exists y.
    split; [assumption|]. split; [assumption|]. split; [now apply Mono|]. split.
    - intro H. destruct (HQ' y H) as [|Hy]; [contradiction|subst y; congruence].
    - intros m Sat. apply Jo; auto. }
  assert (Fst : forall p, solved st' p = if p =? fst x then solved st p ++ [snd x] else solved st p).
  { intro p. unfold st', record. cbn [solved]. now rewrite M, andb_true_r. }
  assert (Case : (exists y, link N x = Some y /\ valid N y /\ is_solved st y = true
                  /\ (forall m, all_sat m (out st') -> joined N st' m x y))
                 \/ (copies_of (kd N (fst x)) <= length (solved st (fst x))
                     /\ (forall b, kd N (fst x) = KHex b ->
                         exists z, fst z = fst x /\ is_solved st z = true
                                   /\ own N z = own N x))).
  { destruct x as [p i]. cbn [fst snd] in *.
    assert (Len : forall k, is_solved st (p, k) = true -> 1 <= length (solved st p)).
    { intros k Hk. apply solved_in in Hk. destruct (solved st p); [destruct Hk|cbn; lia]. }
    inversion Sh as [K'|z Z1 Z2 Z3 Z4 K'|z b Z1 Z2 Z3 Z4 K'|y K' Nil L Vy Sy P Ea|y K' L Vy Sy Fr Vv Cc Pv Ea
        |K' H' Ea|b K' H' H2 Ea|K' H' H2 Ea|s K' H' H1 H2 Ea|s K' H' H1 H2 H3 Ea|b n K' H' Ea];
      cbn [fst snd] in *.
    - right. rewrite K'. cbn. split; [lia|discriminate].
    - right. destruct z as [q k]. cbn in Z1. subst q. split.
      + specialize (Len k Z3). destruct K' as [K'|[b K']]; rewrite K'; cbn; lia.
      + intros b Kb. exists (p, k). auto.
    - right. rewrite K'. cbn. split; [lia|]. intros. exists z. auto.
    - left. exists y. split; [assumption|]. split; [assumption|]. split; [assumption|].
      intros m _. unfold joined, flow. rewrite (AS y) by assumption.
      unfold cond in P. cbn in P. apply negb_true_iff in P. unfold kind_of in *. cbn [fst snd] in *.
      rewrite P. f_equal. unfold addr_of at 1, st', record. cbn [view fst].
      rewrite Nat.eqb_refl. rewrite <- Ea. reflexivity.
    - left. exists y. split; [assumption|]. split; [assumption|]. split; [assumption|].
      intros m Sat. apply joined_pass with st.
      + unfold addr_of, st', record. cbn [view fst]. rewrite Nat.eqb_refl. rewrite <- Ea.
        cbn [a_view emit]. destruct (view st p) as [v|] eqn:Ev; [|reflexivity]. exfalso.
        destruct (i_view N st I _ _ Ev) as (Kp & Ne & _).
        destruct (solved st p) as [|k r] eqn:Sp; [congruence|].
        apply (Fr (p, k)); [reflexivity|apply solved_in; rewrite Sp; now left|].
        unfold own, kind_of. cbn. now rewrite Kp.
      + now apply AS.
      + apply Sat. unfold st', record. cbn [out]. apply in_app_iff. right. rewrite <- Ea. now left.
    - right. rewrite K'. cbn. split; [|discriminate].
      assert (Hi : i < 3) by (destruct V as [_ V2]; cbn in V2; now rewrite K' in V2).
      destruct (i_wf N st I p) as [W1 W2]. rewrite K' in W2. cbn in W2.
      rewrite (two_of_three _ i W1 W2 Hi); [lia|now apply unsolved_in|].
      intros k Hk Nk. apply solved_in. auto.
    - right. rewrite K'. cbn. split; [eapply Len; eauto|discriminate].
    - right. rewrite K'. cbn. split; [eapply Len; eauto|discriminate].
    - right. rewrite K'. cbn. split; [eapply Len; eauto|discriminate].
    - right. rewrite K'. cbn. split; [eapply Len; eauto|discriminate].
    - right. rewrite K'. cbn. split; [lia|discriminate]. }
  destruct Case as [(y & L & Vy & Sy & J)|[Cn Ch]].
  - exists (x :: Q).
    assert (NQ : ~ In x Q).
    { intro H. destruct (q_ports N st Q HQ x H) as (_ & A & _). congruence. }
    constructor.
    + constructor; [assumption|apply HQ].
    + intros z [<-|Hz].
      * split; [assumption|]. split; [assumption|]. exists y. split; [assumption|].
        split; [assumption|]. split; [now apply Mono|]. split; [|assumption].
        intros [H|H]; [subst y; congruence|].
        destruct (q_ports N st Q HQ y H) as (_ & _ & w & Lw & _ & Sw & _).
        rewrite (b_sym N B x y L) in Lw. injection Lw as <-. congruence.
      * apply (Keep (x :: Q)); try assumption.
        -- intros; now right.
        -- intros w [<-|Hw]; auto.
    + intros p i Hi. rewrite Fst in Hi. destruct (Nat.eqb_spec p (fst x)) as [->|].
      * rewrite firstn_snoc in Hi. destruct (_ <? _) eqn:E.
        -- apply in_app_iff in Hi. destruct Hi as [Hi|[<-|[]]].
           ++ right. apply (q_first N st Q HQ). apply Nat.ltb_lt in E.
              rewrite firstn_all2 by lia. assumption.
           ++ left. now destruct x.
        -- right. now apply (q_first N st Q HQ).
      * right. now apply (q_first N st Q HQ).
    + intros p b i K Hi NF. destruct (New _ Hi) as [Ho| <-].
      * destruct (q_hex N st Q HQ p b i K Ho NF) as (k & K1 & K2). exists k. split; [assumption|now right].
      * exists i. split; [reflexivity|now left].
  - exists Q. constructor.
    + apply HQ.
    + intros z Hz. apply (Keep Q); auto.
    + intros p i Hi. rewrite Fst in Hi. destruct (Nat.eqb_spec p (fst x)) as [->|].
      * rewrite firstn_snoc in Hi. destruct (Nat.ltb_spec (length (solved st (fst x))) (copies_of (kd N (fst x)))).
        -- lia.
        -- now apply (q_first N st Q HQ).
      * now apply (q_first N st Q HQ).
    + intros p b i K Hi NF. destruct (New _ Hi) as [Ho|Hx]; [now apply (q_hex N st Q HQ p b i)|].
      subst x. cbn [fst snd] in *. destruct (Ch b K) as ([q k] & Z1 & Z2 & Z3). cbn in Z1. subst q.
      unfold own, kind_of in Z3. cbn [fst snd] in Z3. rewrite K in Z3. cbn [cellix] in Z3.
      assert (E : k / 2 = i / 2) by lia.
      destruct (q_hex N st Q HQ p b k K Z2) as (k' & K1 & K2).
      { intros [H|(H1 & H2 & H3)]; cbn [fst snd] in *; [congruence|].
        apply NF. right. cbn [fst snd]. rewrite <- E. auto. }
      exists k'. split; [congruence|assumption].
Qed.

Lemma passed_on_start N : passed_on N (start N) [].
Proof.
  constructor.
  - constructor.
  - intros x [].
  - intros p i H. exfalso. unfold start in H. cbn [solved] in H.
    destruct (kd N p); cbn in H; destruct H.
  - intros p b i K H NF. exfalso. apply NF. unfold is_solved, start in H. cbn in H. rewrite K in H.
    destruct (external N p) eqn:E; [|discriminate].
    right. cbn [fst snd]. split; [eauto|]. split; [assumption|].
    apply mem_nat_in in H. destruct H as [<-|[<-|[]]]; reflexivity.
Qed.

Lemma passed_on_steps N st st' : buildable N -> inv N st -> steps N st st' ->
  (exists Q, passed_on N st Q) -> exists Q, passed_on N st' Q.
Proof.
  intros B I S. revert I. induction S as [|a b c H1 H2 IH]; [tauto|].
  intros I H. apply IH; [eapply inv_step; eauto|]. eapply passed_on_step; eauto.
Qed.
