(** Proofs about the topology analyser: counting ports of a closed circuit. *)
From Coq Require Import Reals ZArith List Bool Lra Lia Arith Permutation.
From Verif Require Import MNet SNet LNet MTopo STopo LTopo LTopo2 LTopo3 LTopo4 LTopo6.
Import ListNotations.
Local Open Scope nat_scope.

Definition rtotal {A} (s : A -> R) (l : list A) : R := fold_right Rplus 0%R (map s l).

Lemma rtotal_app {A} (s : A -> R) l l' : rtotal s (l ++ l') = (rtotal s l + rtotal s l')%R.
Proof. unfold rtotal. induction l as [|a l IH]; cbn; [lra|]. rewrite IH. lra. Qed.

Lemma rtotal_perm {A} (s : A -> R) l l' : Permutation l l' -> rtotal s l = rtotal s l'.
Proof. unfold rtotal. induction 1; cbn; try lra; congruence. Qed.

Lemma rtotal_flat {A B} (s : B -> R) (f : A -> list B) : forall l,
  (forall a, In a l -> rtotal s (f a) = 0%R) -> rtotal s (flat_map f l) = 0%R.
Proof.
  induction l as [|a l IH]; intro H; [reflexivity|]. cbn [flat_map]. rewrite rtotal_app.
  rewrite (H a) by now left. rewrite IH; [lra|]. intros; apply H; now right.
Qed.

Lemma filter_flat {A B} (c : B -> bool) (f : A -> list B) : forall l,
  filter c (flat_map f l) = flat_map (fun a => filter c (f a)) l.
Proof. induction l as [|a l IH]; cbn; [reflexivity|]. rewrite filter_app. now rewrite IH. Qed.

Definition nsum (f : nat -> nat) (l : list nat) : nat := fold_right Nat.add 0 (map f l).

Lemma nsum_le f g : forall l, (forall p, In p l -> f p <= g p) -> nsum f l <= nsum g l.
Proof.
  unfold nsum. induction l as [|p l IH]; intro H; cbn; [lia|].
  pose proof (H p (or_introl eq_refl)). specialize (IH (fun q Hq => H q (or_intror Hq))). lia.
Qed.
Lemma nsum_add f g : forall l, nsum (fun p => f p + g p) l = nsum f l + nsum g l.
Proof. unfold nsum. induction l as [|p l IH]; cbn; [lia|]. rewrite IH. lia. Qed.
Lemma nsum_scale k f : forall l, nsum (fun p => k * f p) l = k * nsum f l.
Proof. unfold nsum. induction l as [|p l IH]; cbn; [lia|]. rewrite IH. lia. Qed.
Lemma nsum_filter (b : nat -> bool) : forall l,
  nsum (fun p => if b p then 1 else 0) l = length (filter b l).
Proof. unfold nsum. induction l as [|p l IH]; cbn; [reflexivity|]. rewrite IH. now destruct (b p). Qed.
Lemma flat_length {B} (f : nat -> list B) : forall l, length (flat_map f l) = nsum (fun p => length (f p)) l.
Proof. unfold nsum. induction l as [|p l IH]; cbn; [reflexivity|]. rewrite app_length. now rewrite IH. Qed.

Lemma split_by_part (Q : list port) n : (forall x, In x Q -> fst x < n) ->
  nsum (fun p => length (filter (fun x => fst x =? p) Q)) (seq 0 n) = length Q.
Proof.
  induction Q as [|x Q IH]; intro H.
  - cbn. unfold nsum. induction (seq 0 n) as [|p l IHl]; cbn; [reflexivity|assumption].
  - specialize (IH (fun y Hy => H y (or_intror Hy))). cbn [length]. rewrite <- IH.
    assert (E : nsum (fun p => (if fst x =? p then 1 else 0)
                               + length (filter (fun y => fst y =? p) Q)) (seq 0 n)
                = S (nsum (fun p => length (filter (fun y => fst y =? p) Q)) (seq 0 n))).
    { rewrite nsum_add, nsum_filter. specialize (H x (or_introl eq_refl)).
      assert (L : length (filter (fun p => fst x =? p) (seq 0 n)) = 1);
        [|etransitivity; [apply f_equal2; [exact L|reflexivity]|reflexivity]].
      replace n with (fst x + S (n - S (fst x))) by lia. rewrite seq_app, filter_app, app_length.
      cbn [seq filter]. rewrite Nat.add_0_l, Nat.eqb_refl. cbn [length].
      assert (Z : forall a k, (forall p, In p (seq a k) -> fst x <> p) ->
                  filter (fun p => fst x =? p) (seq a k) = []).
      { intros a k Hk. induction (seq a k) as [|p l IHl]; [reflexivity|]. cbn.
        destruct (Nat.eqb_spec (fst x) p); [exfalso; now apply (Hk p); [left|]|].
        apply IHl. intros; apply Hk; now right. }
      rewrite !Z; [reflexivity| |]; intros p Hp E; apply in_seq in Hp; lia. }
    rewrite <- E. unfold nsum. f_equal. apply map_ext. intro p. cbn [filter].
    now destruct (fst x =? p).
Qed.

Lemma port_dec (x y : port) : {x = y} + {x <> y}.
Proof. decide equality; apply Nat.eq_dec. Qed.

(** Connections that are not copies come in at most one pair, whose flows must
    cancel as all others do. *)
Lemma last_pair N (Q : list port) (s : port -> R) (c : port -> bool) : buildable N ->
  NoDup Q ->
  (forall x, In x Q -> valid N x /\ exists y, link N x = Some y /\ valid N y /\ ~ In y Q
                       /\ (s x + s y = 0)%R) ->
  (forall x y, valid N x -> link N x = Some y -> c x = c y) ->
  (forall x, link N x <> Some x) ->
  rtotal s (filter c (all_ports N)) = 0%R ->
  length (filter c (all_ports N)) <= 2 * length (filter c Q) + 2 ->
  forall x y, valid N x -> c x = true -> link N x = Some y -> (s x + s y = 0)%R.
Proof.
  intros B ND HQ Hc Irr Hs Hl x y V Cx L.
  set (Q' := filter c Q) in *. set (pa := fun z => match link N z with Some w => w | None => z end).
  assert (HQ' : forall z, In z Q' -> In z Q /\ c z = true) by (intros z Hz; now apply filter_In in Hz).
  assert (Vy : valid N y) by (eapply b_valid; eauto).
  assert (Cy : c y = true) by (rewrite <- (Hc x y V L); assumption).
  assert (Ly : link N y = Some x) by (now apply (b_sym N B)).
  destruct (in_dec port_dec x Q) as [Hx|Hx].
  { destruct (HQ x Hx) as (_ & w & Lw & _ & _ & E). rewrite L in Lw. injection Lw as <-. assumption. }
  destruct (in_dec port_dec y Q) as [Hy|Hy].
  { destruct (HQ y Hy) as (_ & w & Lw & _ & _ & E). rewrite Ly in Lw. injection Lw as <-. lra. }
  assert (Pa : forall z, In z Q' -> link N z = Some (pa z) /\ valid N (pa z) /\ ~ In (pa z) Q
               /\ (s z + s (pa z) = 0)%R /\ c (pa z) = true /\ link N (pa z) = Some z).
  { intros z Hz. destruct (HQ' z Hz) as [Hq Hcz].
    destruct (HQ z Hq) as (Vz & w & Lw & Vw & Nw & E). unfold pa. rewrite Lw.
    repeat split; try assumption; try apply Vw.
    - now rewrite <- (Hc z w Vz Lw).
    - now apply (b_sym N B). }
  assert (NP : forall z w, In w Q' -> link N w = Some z -> ~ In z Q /\ link N z = Some w).
  { intros z w Hw Lw. destruct (Pa w Hw) as (P1 & P2 & P3 & P4 & P5 & P6).
    rewrite Lw in P1. injection P1 as E. rewrite <- E in *. auto. }
  assert (NDall : NoDup (x :: y :: Q' ++ map pa Q')).
  { assert (ND' : NoDup Q') by (now apply NoDup_filter).
    assert (NDq : NoDup (Q' ++ map pa Q')).
    { clear Hl Hs. revert Pa ND'. intros P NDl.
      assert (G : forall l1 l2 : list port, NoDup l1 -> NoDup l2 ->
                  (forall z, In z l1 -> ~ In z l2) -> NoDup (l1 ++ l2)).
      { induction l1 as [|z l1 IH]; intros l2 N1 N2 H; [assumption|]. cbn. inversion N1; subst.
        constructor.
        - intro Hz. apply in_app_iff in Hz. destruct Hz as [Hz|Hz]; [contradiction|].
          now apply (H z (or_introl eq_refl)).
        - apply IH; auto. intros; apply H; now right. }
      apply G; [assumption| |].
      - revert P NDl. generalize Q' as l. induction l as [|z l IH]; intros P N1; [constructor|].
        cbn. inversion N1; subst. constructor.
        + intro H. apply in_map_iff in H. destruct H as (w & E & Hw).
          destruct (P w (or_intror Hw)) as (_ & _ & _ & _ & _ & Lw).
          destruct (P z (or_introl eq_refl)) as (_ & _ & _ & _ & _ & Lz).
          rewrite E in Lw. assert (w = z) by congruence. subst. contradiction.
        + apply IH; [|assumption]. intros; apply P; now right.
      - intros z Hz H. apply in_map_iff in H. destruct H as (w & E & Hw).
        destruct (P w Hw) as (_ & _ & Nw & _). apply Nw. rewrite E. now apply HQ'. }
    assert (Out : forall z w, link N z = Some w -> ~ In z Q -> ~ In w Q ->
                  ~ In z (Q' ++ map pa Q')).
    { intros z w Lz Nz Nw H. apply in_app_iff in H. destruct H as [H|H].
      - apply Nz. now apply HQ'.
      - apply in_map_iff in H. destruct H as (v & E & Hv).
        destruct (Pa v Hv) as (_ & _ & _ & _ & _ & Lv). rewrite E in Lv.
        assert (v = w) by congruence. subst v. apply Nw. now apply HQ'. }
    constructor.
    - intros [H|H]; [subst y; now apply (Irr x)|]. now apply (Out x y).
    - constructor; [now apply (Out y x)|assumption]. }
  assert (Inc : incl (x :: y :: Q' ++ map pa Q') (filter c (all_ports N))).
  { intros z Hz. apply filter_In. rewrite all_ports_in.
    destruct Hz as [<-|[<-|Hz]]; auto. apply in_app_iff in Hz. destruct Hz as [Hz|Hz].
    - destruct (HQ' z Hz) as [H1 H2]. split; [now apply HQ|assumption].
    - apply in_map_iff in Hz. destruct Hz as (w & <- & Hw). now destruct (Pa w Hw) as (_ & P2 & _ & _ & P5 & _). }
  assert (P : Permutation (x :: y :: Q' ++ map pa Q') (filter c (all_ports N))).
  { apply NoDup_Permutation_bis; try assumption. cbn [length]. rewrite app_length, map_length. lia. }
  rewrite <- (rtotal_perm s _ _ P) in Hs.
  assert (Z : rtotal s (Q' ++ map pa Q') = 0%R).
  { rewrite rtotal_app. clear Hl Hs NDall Inc P. revert Pa. generalize Q' as l.
    induction l as [|z l IH]; intro Pz; [cbn; unfold rtotal; cbn; lra|].
    specialize (IH (fun w Hw => Pz w (or_intror Hw))).
    destruct (Pz z (or_introl eq_refl)) as (_ & _ & _ & E & _).
    unfold rtotal in *. cbn [map fold_right]. lra. }
  unfold rtotal in *. cbn [map fold_right] in Hs. lra.
Qed.

(** ** Circuits *)
Definition same_unit (N : design) (x y : port) : Prop :=
  fst x = fst y
  /\ match kd N (fst x) with KHex _ => snd x / 2 = snd y / 2 | _ => True end.

(** A hydraulically closed circuit: a set of ports closed under connections and
    flow channels, every port connected, no storages, branched pipes or externally
    driven channels. *)
Record circuit (N : design) (c : port -> bool) : Prop := {
  ci_link : forall x y, valid N x -> link N x = Some y -> c x = c y;
  ci_unit : forall x y, valid N x -> valid N y -> same_unit N x y -> c x = c y;
  ci_closed : forall x, valid N x -> c x = true -> link N x <> None;
  ci_self : forall x, link N x <> Some x;
  ci_hub : forall x b n, c x = true -> kd N (fst x) <> KHub b n;
  ci_free : forall p b i, kd N p = KHex b -> external N p = true -> i / 2 = 1 -> c (p, i) = false }.

Definition count (N : design) (c : port -> bool) (f : kind -> bool) : nat :=
  length (filter (fun p => (f (kd N p) && c (p, 0))%bool) (seq 0 (nparts N))).
Definition k_pump (k : kind) : bool := match k with KPump => true | _ => false end.
Definition k_valve (k : kind) : bool := match k with KValve _ | KPValve => true | _ => false end.
Definition k_conn (k : kind) : bool := match k with KConn => true | _ => false end.

Lemma const_filter (c : port -> bool) p b : forall n a, (forall i, i < a + n -> c (p, i) = b) ->
  length (filter c (map (pair p) (seq a n))) = if b then n else 0.
Proof.
  induction n as [|n IH]; intros a H; cbn; [now destruct b|].
  rewrite (H a) by lia. destruct b; cbn [length]; rewrite (IH (S a)); try reflexivity;
    intros; apply H; lia.
Qed.

Lemma count_ports_le N st c Q : buildable N -> wf N st -> passed_on N st Q -> circuit N c ->
  (forall x, valid N x -> c x = true -> is_solved st x = true) ->
  length (filter c (all_ports N)) + count N c k_conn
  <= 2 * length (filter c Q) + 2 * count N c k_pump + count N c k_valve.
Proof.
  intros B W HQ HC AS.
  assert (HQv : forall x, In x (filter c Q) -> fst x < nparts N).
  { intros x Hx. apply filter_In in Hx. destruct Hx as [Hx _].
    destruct (q_ports N st Q HQ x Hx) as ((V & _) & _). exact V. }
  rewrite <- (split_by_part (filter c Q) (nparts N) HQv).
  unfold all_ports. rewrite filter_flat, flat_length. unfold count. rewrite <- !nsum_filter.
  rewrite <- !nsum_scale, <- !nsum_add. apply nsum_le. intros p Hp. apply in_seq in Hp.
  assert (Hp' : p < nparts N) by lia. clear Hp.
  assert (Qin : forall l : list nat, NoDup l -> (forall i, In i l -> In (p, i) Q /\ c (p, i) = true) ->
    length l <= length (filter (fun x => fst x =? p) (filter c Q))).
  { intros l ND H. rewrite <- (map_length (pair p) l). apply NoDup_incl_length.
    - apply FinFun.Injective_map_NoDup; [|assumption]. intros a b E. congruence.
    - intros z Hz. apply in_map_iff in Hz. destruct Hz as (i & <- & Hi).
      destruct (H i Hi) as [H1 H2]. apply filter_In. cbn [fst]. rewrite Nat.eqb_refl.
      split; [|reflexivity]. now apply filter_In. }
  assert (NDs : NoDup (solved st p)) by apply W.
  assert (Full : forall k, kd N p = k -> (forall b, k <> KHex b) -> c (p, 0) = true -> 1 <= nports k ->
    (forall i, i < nports k -> c (p, i) = true) /\ length (solved st p) = nports k
    /\ copies_of k <= length (filter (fun x => fst x =? p) (filter c Q)) \/ nports k < copies_of k).
  { intros k K NH C0 Hk. destruct (Nat.le_gt_cases (copies_of k) (nports k)) as [Hc|]; [left|now right].
    assert (Ca : forall i, i < nports k -> c (p, i) = true).
    { intros i Hi. rewrite <- C0. apply (ci_unit N c HC); [split; cbn; [assumption|now rewrite K]|
        split; cbn; [assumption|rewrite K; lia]|].
      split; [reflexivity|]. cbn. rewrite K. destruct k; try exact I. now destruct (NH copies). }
    assert (Ls : length (solved st p) = nports k).
    { assert (P : incl (seq 0 (nports k)) (solved st p)).
      { intros i Hi. apply in_seq in Hi. apply solved_in. apply AS; [|apply Ca; lia].
        split; cbn; [assumption|rewrite K; lia]. }
      pose proof (NoDup_incl_length (seq_NoDup (nports k) 0) P) as P2.
      rewrite seq_length in P2. pose proof (wf_length N st p W) as P3. rewrite K in P3. lia. }
    split; [assumption|]. split; [assumption|].
    rewrite <- (firstn_length_le (solved st p) (n := copies_of k)) by lia.
    apply Qin.
    - rewrite <- (firstn_skipn (copies_of k) (solved st p)) in NDs.
      clear -NDs. induction (firstn (copies_of k) (solved st p)) as [|z l IH]; [constructor|].
      cbn in NDs. inversion NDs; subst. constructor; [|now apply IH].
      intro H. apply H1. apply in_app_iff. now left.
    - intros i Hi. split; [apply (q_first N st Q HQ); now rewrite K|].
      apply Ca. destruct (W p) as [_ W2]. rewrite K in W2. apply W2.
      rewrite <- (firstn_skipn (copies_of k) (solved st p)). apply in_app_iff. now left. }
  assert (Zero : forall k, kd N p = k -> (forall b, k <> KHex b) -> c (p, 0) = false ->
    length (filter c (map (pair p) (seq 0 (nports k)))) = 0).
  { intros k K NH C0. destruct (Nat.eq_dec (nports k) 0) as [->|Nz]; [reflexivity|].
    rewrite (const_filter c p false); [reflexivity|].
    intros i Hi. rewrite <- C0. apply (ci_unit N c HC); [split; cbn; [assumption|rewrite K; lia]|
        split; cbn; [assumption|rewrite K; lia]|].
    split; [reflexivity|]. cbn. rewrite K. destruct k; try exact I. now destruct (NH copies). }
  destruct (kd N p) eqn:K.
  3:{ cbn [k_conn k_pump k_valve andb nports].
      assert (Ch : forall a, a < 2 -> c (p, 2 * a) = c (p, 2 * a + 1)).
      { intros a Ha. apply (ci_unit N c HC); [split; cbn; [assumption|rewrite K; cbn; lia]..|].
        split; [reflexivity|]. cbn [fst snd]. rewrite K. destruct a as [|[|]]; try lia; reflexivity. }
      pose proof (Ch 0 ltac:(lia)) as C1. pose proof (Ch 1 ltac:(lia)) as C2. cbn in C1, C2.
      assert (Hx : forall a, a < 2 -> c (p, 2 * a) = true ->
                   exists k, k / 2 = a /\ In (p, k) Q /\ c (p, k) = true).
      { intros a Ha Ca.
        assert (Va : valid N (p, 2 * a)) by (split; cbn; [assumption|rewrite K; cbn; lia]).
        destruct (q_hex N st Q HQ p _ (2 * a) K (AS _ Va Ca)) as (k & K1 & K2).
        { intros [H|(H1 & H2 & H3)]; cbn [fst snd] in *; [congruence|].
          rewrite (ci_free N c HC p _ _ K H2 H3) in Ca. discriminate. }
        rewrite Nat.mul_comm, Nat.div_mul in K1 by lia.
        exists k. split; [assumption|]. split; [assumption|].
        rewrite <- Ca. apply (ci_unit N c HC); [apply (q_ports N st Q HQ _ K2)|assumption|].
        split; [reflexivity|]. cbn [fst snd]. rewrite K. rewrite K1.
        now rewrite Nat.mul_comm, Nat.div_mul by lia. }
      cbn [map seq filter]. rewrite <- C1, <- C2.
      destruct (c (p, 0)) eqn:E0, (c (p, 2)) eqn:E2; cbn [length].
      - destruct (Hx 0 ltac:(lia) E0) as (k & K1 & K2 & K3).
        destruct (Hx 1 ltac:(lia) E2) as (k' & K1' & K2' & K3').
        specialize (Qin [k; k']). cbn [length] in Qin.
        assert (2 <= length (filter (fun x => fst x =? p) (filter c Q))); [|lia].
        apply Qin.
        + constructor; [|repeat constructor; tauto]. intros [H|[]]. subst k'. lia.
        + intros i [<-|[<-|[]]]; auto.
      - destruct (Hx 0 ltac:(lia) E0) as (k & K1 & K2 & K3).
        assert (1 <= length (filter (fun x => fst x =? p) (filter c Q))); [|lia].
        apply (Qin [k]); [repeat constructor; tauto|]. intros i [<-|[]]; auto.
      - destruct (Hx 1 ltac:(lia) E2) as (k & K1 & K2 & K3).
        assert (1 <= length (filter (fun x => fst x =? p) (filter c Q))); [|lia].
        apply (Qin [k]); [repeat constructor; tauto|]. intros i [<-|[]]; auto.
      - lia. }
  all: try (destruct (c (p, 0)) eqn:C0;
    [destruct (Full _ eq_refl ltac:(discriminate) eq_refl ltac:(cbn; lia)) as [(Ca & Ls & Cq)|Bad];
       [rewrite (const_filter c p true) by (intros; apply Ca; cbn in *; lia);
        cbn [k_conn k_pump k_valve andb nports copies_of] in *; lia
       |cbn in Bad; lia]
    |rewrite (Zero _ eq_refl ltac:(discriminate) eq_refl);
     cbn [k_conn k_pump k_valve andb]; lia]; fail).
  cbn [k_conn k_pump k_valve andb].
  assert (C0 : filter c (map (pair p) (seq 0 (nports (KHub comp n)))) = []).
  { induction (seq 0 (nports (KHub comp n))) as [|i l IH]; [reflexivity|]. cbn.
    destruct (c (p, i)) eqn:E; [exfalso; now apply (ci_hub N c HC (p, i) comp n E)|exact IH]. }
  rewrite C0. cbn. lia.
Qed.
