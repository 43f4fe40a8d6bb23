(** C157: first law for a whole network. *)
From Coq Require Import Reals List Arith Bool Lia Lra Permutation.
From Verif Require Import MFlow MWater MDiff SFlow SDiff SNetHeat LFlow LWater LDiff LDiff2 LDiff3 LDiff4
  LDiff5 LDiff6 LDiff7 PDiff.
Import ListNotations.
Open Scope R_scope.

Lemma heat_rate_plus g Tx a b c : heat_rate g Tx (fun j => a j + b j + c j) =
  heat_rate g Tx a + heat_rate g Tx b + heat_rate g Tx c.
Proof. unfold heat_rate. rewrite <- !rsum_plus. apply rsum_ext. intros. ring. Qed.
Lemma heat_rate_zero g Tx : heat_rate g Tx (fun _ => 0) = 0.
Proof. apply rsum_zero. intros. ring. Qed.

Lemma heated_rate g lo hi dQ io f Tx Tp Tamb b : geo_ok g -> in_range g Tx Tp Tamb ->
  (lo < hi)%nat -> (hi <= g_n g)%nat ->
  heat_rate g Tx (r_heat (heated_diff g lo hi dQ io f Tx Tp Tamb b)) = heat_power (g_n g) Tx dQ.
Proof.
  intros G H L1 L2. unfold heated_diff. cbn [part_diff r_heat].
  apply (heated_sum (g_n g) lo hi (heat_power (g_n g) Tx dQ)
    (fun j => g_V g * (rho_water (Tx (S j)) * cp_water (Tx (S j))) + g_mw g)); try assumption.
  intros j Hj. pose proof (rhocp_bounds (Tx (S j)) (proj1 H j Hj)). destruct G. nra.
Qed.

(** One part: what enters through shell, lids, heating and ports. *)
Lemma unit_balance u : u_ok geo_ok u ->
  u_gain u = u_ambient u + u_heating u + rsum (g_np (u_geo u)) (u_port u).
Proof.
  intros (G&IR&F&HK). unfold u_gain, u_ambient, u_heating, u_port.
  assert (TOT : r_tot (u_res u) = (fun j => r_cond (u_res u) j + r_adv (u_res u) j + r_heat (u_res u) j)).
  { unfold u_res. destruct (u_kind u); reflexivity. }
  rewrite TOT, heat_rate_plus, rsum_plus. clear TOT.
  unfold u_res, u_io in *. destruct (u_kind u) as [io|lo hi dQ io|io|io].
  - rewrite C12_pipe, C13_pipe by assumption. 
    replace (heat_rate (u_geo u) (u_T u) (r_heat (pipe_diff (u_geo u) io (u_fl u) (u_T u) (u_P u) (u_amb u) (u_buf u))))
      with 0 by (symmetry; apply heat_rate_zero). unfold port_enthalpy. lra.
  - destruct HK as (HP&L1&L2).
    rewrite C12_heated, C13_heated, heated_rate by assumption. unfold port_enthalpy. lra.
  - destruct HK as (HP&H0). rewrite C12_branched, C13_branched by assumption.
    replace (heat_rate (u_geo u) (u_T u) (r_heat (branched_diff (u_geo u) io (u_fl u) (u_T u) (u_P u) (u_amb u) (u_buf u))))
      with 0 by (symmetry; apply heat_rate_zero). unfold port_enthalpy. lra.
  - destruct HK as (HP&H0). rewrite C12_tes, C13_tes by assumption.
    replace (heat_rate (u_geo u) (u_T u) (r_heat (tes_diff (u_geo u) io (u_fl u) (u_T u) (u_P u) (u_amb u) (u_buf u))))
      with 0 by (symmetry; apply heat_rate_zero). unfold port_enthalpy. lra.
Qed.

Lemma uap_val u i : r_uap (u_res u) i = ua_port (u_geo u) (u_P u) (fun j => u_T u (S j)) i.
Proof. unfold u_res. destruct (u_kind u); reflexivity. Qed.

(** What one of two connected ports receives, the other one loses. *)
Lemma joined_opposite net p q : joined net p q -> joined net q p ->
  u_port (net (fst q)) (snd q) = - u_port (net (fst p)) (snd p).
Proof.
  intros (A1&A2&A3&A4&A5) (B1&B2&B3&B4&B5). unfold u_port. rewrite !uap_val. unfold ua_port.
  rewrite A1, B1, A2, A3, A4, A5, B5.
  set (u := net (fst p)) in *. set (v := net (fst q)) in *.
  rewrite Ropp_involutive.
  rewrite (Rplus_comm (g_gsp (u_geo u) / _)). ring.
Qed.

Lemma lsum_app {A} (f : A -> R) l m : lsum f (l ++ m) = lsum f l + lsum f m.
Proof. unfold lsum. induction l as [|x l IH]; cbn [fold_right app]; [lra|]. rewrite IH. lra. Qed.
Lemma lsum_perm {A} (f : A -> R) l m : Permutation l m -> lsum f l = lsum f m.
Proof. unfold lsum. induction 1; cbn [fold_right]; lra. Qed.
Lemma lsum_map {A B} (f : B -> R) (h : A -> B) l : lsum f (map h l) = lsum (fun x => f (h x)) l.
Proof. unfold lsum. induction l as [|x l IH]; cbn [fold_right map]; [reflexivity|]. rewrite IH. reflexivity. Qed.
Lemma lsum_ext {A} (f g : A -> R) l : (forall x, In x l -> f x = g x) -> lsum f l = lsum g l.
Proof.
  unfold lsum. induction l as [|x l IH]; intros H; cbn [fold_right]; [reflexivity|].
  rewrite IH by (intros; apply H; right; assumption). rewrite H by (left; reflexivity). reflexivity.
Qed.
Lemma lsum_opp {A} (f : A -> R) l : lsum (fun x => - f x) l = - lsum f l.
Proof. unfold lsum. induction l as [|x l IH]; cbn [fold_right]; [lra|]. rewrite IH. lra. Qed.
Lemma lsum_split {A} (f : A -> R) (b : A -> bool) l :
  lsum f l = lsum f (filter b l) + lsum f (filter (fun x => negb (b x)) l).
Proof. unfold lsum. induction l as [|x l IH]; cbn [fold_right filter]; [lra|].
  destruct (b x); cbn [fold_right negb]; lra. Qed.
Lemma lsum_seq (f : nat -> R) n : lsum f (seq 0 n) = rsum n f.
Proof.
  induction n as [|n IH]; [reflexivity|]. rewrite seq_S, lsum_app, IH. unfold lsum. cbn [fold_right rsum Nat.add]. lra.
Qed.

Lemma ports_sum K net (f : nat * nat -> R) :
  lsum f (ports_list K net) = rsum K (fun k => rsum (g_np (u_geo (net k))) (fun i => f (k, i))).
Proof.
  unfold ports_list. induction K as [|K IH]; [reflexivity|].
  rewrite seq_S, flat_map_app, lsum_app, IH. cbn [rsum flat_map Nat.add]. rewrite app_nil_r, lsum_map, lsum_seq.
  reflexivity.
Qed.
Lemma in_ports K net p : In p (ports_list K net) <-> port_of K net p.
Proof.
  unfold ports_list, port_of. rewrite in_flat_map. destruct p as [k i]. cbn [fst snd]. split.
  - intros [x [Hx Hi]]. apply in_map_iff in Hi. destruct Hi as [y [E Hy]]. inversion E; subst.
    apply in_seq in Hx. apply in_seq in Hy. split; lia.
  - intros [H1 H2]. exists k. split; [apply in_seq; lia|]. apply in_map_iff. exists i. split; [reflexivity|].
    apply in_seq. lia.
Qed.
Lemma ports_nodup K net : NoDup (ports_list K net).
Proof.
  unfold ports_list. induction K as [|K IH]; [constructor|].
  rewrite seq_S, flat_map_app. cbn [flat_map Nat.add]. rewrite app_nil_r.
  apply (Permutation_NoDup (Permutation_app_comm (map (pair K) (seq 0 (g_np (u_geo (net K))))) _)).
  set (l2 := flat_map _ _) in *. set (l1 := map _ _).
  assert (D : forall x, In x l1 -> ~ In x l2).
  { intros x H1 H2. unfold l1 in H1. apply in_map_iff in H1. destruct H1 as [y [<- _]].
    apply in_flat_map in H2. destruct H2 as [z [Hz Hy]]. apply in_map_iff in Hy. destruct Hy as [w [E _]].
    inversion E; subst. apply in_seq in Hz. lia. }
  assert (N1 : NoDup l1).
  { apply FinFun.Injective_map_NoDup; [|apply seq_NoDup]. intros a b E. inversion E. reflexivity. }
  clear - D N1 IH. induction l1 as [|x l1 IH1]; [exact IH|]. inversion N1; subst. cbn. constructor.
  - rewrite in_app_iff. intros [H|H]; [contradiction|]. apply (D x); [left; reflexivity|exact H].
  - apply IH1; [intros y Hy; apply D; right; exact Hy|assumption].
Qed.

Section Net.
Variables (K : nat) (net : nat -> unit_) (mate : nat * nat -> option (nat * nat)).
Hypothesis PL : plumbing K net mate.
Let f (p : nat * nat) := u_port (net (fst p)) (snd p).
Let mt (p : nat * nat) := match mate p with Some q => q | None => p end.
Let inner := filter (fun p => negb (at_boundary mate p)) (ports_list K net).

Lemma inner_iff p : In p inner <-> port_of K net p /\ exists q, mate p = Some q.
Proof.
  unfold inner. rewrite filter_In, in_ports. unfold at_boundary. destruct (mate p) as [q|].
  - split; [intros [H _]; split; [exact H|eauto]|intros [H _]; split; [exact H|reflexivity]].
  - split; [intros [_ H]; discriminate|intros [_ [q H]]; discriminate].
Qed.
Lemma mt_inner p : In p inner -> In (mt p) inner /\ mt (mt p) = p /\ f (mt p) = - f p.
Proof.
  intros H. apply inner_iff in H. destruct H as [Hp [q E]]. unfold mt. rewrite E.
  destruct (PL p q Hp E) as (Hq&Eq&_&J). destruct (PL q p Hq Eq) as (_&_&_&J').
  split; [apply inner_iff; split; [exact Hq|eauto]|]. rewrite Eq. split; [reflexivity|].
  apply joined_opposite; assumption.
Qed.
Lemma inner_zero : lsum f inner = 0.
Proof.
  assert (ND : NoDup inner) by (apply NoDup_filter, ports_nodup).
  assert (P : Permutation inner (map mt inner)).
  { apply NoDup_Permutation.
    - exact ND.
    - assert (I : forall p q, In p inner -> In q inner -> mt p = mt q -> p = q).
      { intros p q Hp Hq E. destruct (mt_inner p Hp) as (_&A&_). destruct (mt_inner q Hq) as (_&B&_).
        rewrite <- A, E, B. reflexivity. }
      revert ND I. generalize inner. intros l0 ND I. induction l0 as [|x l IH]; [constructor|]. inversion ND; subst. cbn. constructor.
      + intros Hin. apply in_map_iff in Hin. destruct Hin as [y [E Hy]].
        assert (y = x) by (apply I; [right; exact Hy|left; reflexivity|exact E]). subst. contradiction.
      + apply IH; [assumption|]. intros p q Hp Hq. apply I; right; assumption.
    - intros p. split; intros H.
      + apply in_map_iff. exists (mt p). destruct (mt_inner p H) as (A&B&_). split; assumption.
      + apply in_map_iff in H. destruct H as [q [<- Hq]]. apply (mt_inner q Hq). }
  apply (lsum_perm f) in P. rewrite lsum_map in P.
  rewrite (lsum_ext (fun x => f (mt x)) (fun x => - f x)) in P by (intros x Hx; apply (mt_inner x Hx)).
  rewrite lsum_opp in P. lra.
Qed.
End Net.

(** The heat content of a network changes only by what it exchanges with the ambient, receives
    from heating, and receives through ports that are not connected inside the network; whatever
    the connections, flows and flow directions, all exchange between its parts cancels. *)
Theorem C157_first_law : forall K net mate, (forall k, (k < K)%nat -> u_ok geo_ok (net k)) ->
  plumbing K net mate ->
  rsum K (fun k => u_gain (net k)) =
    rsum K (fun k => u_ambient (net k)) + rsum K (fun k => u_heating (net k))
    + lsum (fun p => u_port (net (fst p)) (snd p)) (filter (at_boundary mate) (ports_list K net)).
Proof.
  intros K net mate OK PL.
  rewrite (rsum_ext K _ (fun k => u_ambient (net k) + u_heating (net k) + rsum (g_np (u_geo (net k))) (u_port (net k))))
    by (intros k Hk; apply unit_balance, OK, Hk).
  rewrite !rsum_plus.
  pose proof (ports_sum K net (fun p => u_port (net (fst p)) (snd p))) as PS. cbn [fst snd] in PS.
  change (rsum K (fun k => rsum (g_np (u_geo (net k))) (u_port (net k))))
    with (rsum K (fun k => rsum (g_np (u_geo (net k))) (fun i => u_port (net k) i))).
  rewrite <- PS, (lsum_split _ (at_boundary mate)), (inner_zero K net mate PL). lra.
Qed.

(** A closed network without heating whose parts are all at least as warm as their surroundings
    never gains heat. *)
Theorem C157_closed : forall K net mate, (forall k, (k < K)%nat -> u_ok geo_ok (net k)) ->
  plumbing K net mate -> (forall p, port_of K net p -> mate p <> None) ->
  (forall k, (k < K)%nat -> u_heating (net k) = 0 /\ bufs_at (u_geo (net k)) (u_buf (net k)) /\
     forall j, (j < g_n (u_geo (net k)))%nat -> u_amb (net k) <= u_T (net k) (S j)) ->
  rsum K (fun k => u_gain (net k)) <= 0.
Proof.
  intros K net mate OK PL CL W. rewrite (C157_first_law K net mate OK PL).
  assert (E : filter (at_boundary mate) (ports_list K net) = []).
  { destruct (filter (at_boundary mate) (ports_list K net)) as [|p l] eqn:E; [reflexivity|exfalso].
    assert (H : In p (filter (at_boundary mate) (ports_list K net))) by (rewrite E; left; reflexivity).
    apply filter_In in H. destruct H as [H1 H2]. apply in_ports in H1. apply (CL p H1).
    unfold at_boundary in H2. destruct (mate p); [discriminate|reflexivity]. }
  rewrite E. cbn [lsum fold_right].
  rewrite (rsum_zero K (fun k => u_heating (net k))) by (intros k Hk; apply (W k Hk)).
  assert (A : rsum K (fun k => u_ambient (net k)) <= rsum K (fun _ => 0)).
  { apply rsum_le. intros k Hk. destruct (W k Hk) as (_&B&T). destruct (OK k Hk) as (G&IR&_&_).
    set (u := net k) in *. pose proof (bufs_at_ok _ _ G B) as B'. pose proof (ok_n _ G) as Hn.
    unfold u_ambient.
    assert (U : rsum (g_n (u_geo u)) (fun j => r_ua (u_res u) j * (u_amb u - u_T u (S j))) <= 0).
    { apply Rle_trans with (rsum (g_n (u_geo u)) (fun _ => 0)); [|rewrite rsum_zero; [lra|reflexivity]].
      apply rsum_le. intros j Hj. specialize (T j Hj).
      assert (0 < r_ua (u_res u) j); [|nra].
      unfold u_res. destruct (u_kind u); apply (ua_bounds _ _ _ _ _ _ _ _ _ _ G B' IR j Hj). }
    assert (L : match u_kind u with
      | UTes _ => r_lid (u_res u) 0%nat * (u_amb u - u_T u 1%nat) + r_lid (u_res u) 1%nat * (u_amb u - u_T u (g_n (u_geo u)))
      | _ => 0 end <= 0).
    { destruct (u_kind u) eqn:EK; try lra.
      assert (LN : forall k, 0 <= r_lid (u_res u) k) by (intros q; unfold u_res; rewrite EK; apply (lid_nonneg _ _ _ _ _ _ _ _ _ _ G B' IR)).
      pose proof (T 0%nat ltac:(lia)). pose proof (T (g_n (u_geo u) - 1)%nat ltac:(lia)) as T2.
      replace (S (g_n (u_geo u) - 1))%nat with (g_n (u_geo u)) in T2 by lia.
      pose proof (LN 0%nat). pose proof (LN 1%nat). nra. }
    lra. }
  rewrite (rsum_zero K (fun _ => 0)) in A by reflexivity. lra.
Qed.

(** ** A loop of two pipes with water circulating *)
Definition loop2 (k : nat) : unit_ :=
  match k with
  | O => mkUnit (gx 2 own2) (UPipe 1) (cells3 60 50 40) (fun i => match i with O => 30 | _ => 60 end) 20 flows0 buf0
  | _ => mkUnit (gx 2 own2) (UPipe 1) (cells3 60 40 30) (fun i => match i with O => 40 | _ => 60 end) 20 flows0 buf0
  end.
Definition mate2 (p : nat * nat) : option (nat * nat) :=
  match p with (0, 0) => Some (1, 1) | (0, 1) => Some (1, 0) | (1, 0) => Some (0, 1) | (1, 1) => Some (0, 0)
  | _ => None end%nat.
Example C157_example : (forall k, (k < 2)%nat -> u_ok geo_ok (loop2 k)) /\ plumbing 2 loop2 mate2 /\
  rsum 2 (fun k => u_gain (loop2 k)) <= 0.
Proof.
  assert (OK : forall k, (k < 2)%nat -> u_ok geo_ok (loop2 k)).
  { intros k Hk. destruct k as [|[|k]]; [| |lia]; (split; [apply gx_ok, own2_in|]);
      (split; [|split; [apply fl_new|repeat split; reflexivity]]); cbn [loop2 u_geo u_T u_P u_amb];
      (split; [apply cells3_range; lra|split; [intros [|i] _; lra|lra]]). }
  assert (PL : plumbing 2 loop2 mate2).
  { intros [k i] q [H1 H2] E. cbn [fst snd] in *.
    destruct k as [|[|k]]; [| |lia]; (destruct i as [|[|i]]; [| |cbn in H2; lia]); cbn in E; inversion E; subst;
    unfold port_of, joined; cbn;
    (split; [lia|split; [reflexivity|split; [discriminate|repeat split; lra]]]). }
  split; [exact OK|]. split; [exact PL|].
  apply (C157_closed 2 loop2 mate2 OK PL).
  - intros [k i] [H1 H2]. cbn [fst snd] in *. destruct k as [|[|k]]; [| |lia];
      (destruct i as [|[|i]]; [| |cbn in H2; lia]); discriminate.
  - intros k Hk. destruct k as [|[|k]]; [| |lia]; (split; [reflexivity|split; [constructor|]]);
      intros j Hj; destruct j as [|[|[|j]]]; cbn in *; try lra; lia.
Qed.

Print Assumptions C157_first_law.
Print Assumptions C157_closed.
