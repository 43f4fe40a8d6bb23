(** Property theorems about the meters (C49, C50). *)
From Coq Require Import Reals Lra Lia List Bool String Arith.
From Verif Require Import MWater PWater MMpcCost MMpc MMeters.
Import ListNotations.
Open Scope string_scope.
Open Scope list_scope.
Open Scope R_scope.

(** Amount accumulated over the rows [0..k]: sum of flow times step size. *)
Fixpoint amount (v dt : nat -> R) (k : nat) : R :=
  match k with O => v O * dt O | S j => amount v dt j + v (S j) * dt (S j) end.

Lemma cumsum_from_nth l : forall a k, (k < List.length l)%nat ->
  nth k (cumsum_from a l) 0 = a + amount (fun i => nth i l 0) (fun _ => 1) k.
Proof.
  induction l as [|x l IH]; intros a k K; [cbn in K; lia|].
  destruct k as [|k]; [cbn; ring|].
  cbn [cumsum_from nth]. rewrite IH by (cbn in K; lia).
  assert (E : forall j, amount (fun i => nth i (x :: l) 0) (fun _ => 1) (S j) =
    x + amount (fun i => nth i l 0) (fun _ => 1) j).
  { induction j as [|j J]; [cbn; ring|].
    change (amount (fun i => nth i (x :: l) 0) (fun _ => 1) (S j) + nth (S (S j)) (x :: l) 0 * 1 =
      x + (amount (fun i => nth i l 0) (fun _ => 1) j + nth (S j) l 0 * 1)).
    rewrite J. change (nth (S (S j)) (x :: l) 0) with (nth (S j) l 0). ring. }
  rewrite E. ring.
Qed.

Lemma map2_length {A B C} (f : A -> B -> C) a : forall b, List.length a = List.length b ->
  List.length (map2 f a b) = List.length a.
Proof.
  induction a as [|x a IH]; intros [|y b] L; try discriminate; [reflexivity|].
  cbn. f_equal. apply IH. now injection L.
Qed.

Lemma map2_nth {A B C} (f : A -> B -> C) da db dc a : forall b k, List.length a = List.length b ->
  (k < List.length a)%nat -> nth k (map2 f a b) dc = f (nth k a da) (nth k b db).
Proof.
  induction a as [|x a IH]; intros [|y b] k L K; try discriminate; [cbn in K; lia|].
  destruct k as [|k]; [reflexivity|]. cbn. apply IH; [now injection L|cbn in K; lia].
Qed.

Lemma amount_ext u v d e k : (forall i, (i <= k)%nat -> u i * d i = v i * e i) ->
  amount u d k = amount v e k.
Proof.
  intro H. induction k as [|k IH]; cbn; [apply H; lia|]. rewrite IH, H; [reflexivity|lia|].
  intros i I. apply H. lia.
Qed.

Definition r0 : row := mkRow 0 0 0.
Definition at_row (f : row -> R) (rows : list row) (i : nat) : R := f (nth i rows r0).

Lemma map_at (f : row -> R) rows i : (i < List.length rows)%nat -> nth i (map f rows) 0 = at_row f rows i.
Proof.
  intro H. unfold at_row. rewrite (nth_indep (map f rows) 0 (f r0)) by (now rewrite map_length).
  apply map_nth.
Qed.

Lemma reading (f : row -> R) rows dt k : List.length rows = List.length dt -> (k < List.length rows)%nat ->
  nth k (cumsum (map2 Rmult (map f rows) dt)) 0 = amount (at_row f rows) (fun i => nth i dt 0) k.
Proof.
  intros L K. unfold cumsum. rewrite cumsum_from_nth, Rplus_0_l
    by (rewrite map2_length; rewrite map_length; assumption).
  apply amount_ext. intros i I.
  rewrite (map2_nth Rmult 0 0 0) by (rewrite map_length; lia || exact L).
  rewrite map_at by lia. ring.
Qed.

Lemma map_div_nth c l k : nth k (map (fun v => v / c) l) 0 = nth k l 0 / c.
Proof.
  revert k. induction l as [|a l IH]; intros [|k]; cbn; try reflexivity; try (unfold Rdiv; ring). apply IH.
Qed.

Lemma amount_scale c v d k : amount (fun i => c * v i) d k = c * amount v d k.
Proof. induction k as [|k IH]; cbn; [ring|]. rewrite IH. ring. Qed.

(** C49: readings are running sums of the metered flow, in consistent units (1 kWh = 3.6 MJ,
    1 MJ = 1000 kWs). *)
Theorem C49_readings : forall rows dt k, List.length rows = List.length dt ->
  (k < List.length rows)%nat ->
  let d := fun i => nth i dt 0 in
  nth k (flown_mass dt rows) 0 = amount (at_row w_m rows) d k /\
  nth k (flown_volume dt rows) 0 = amount (at_row (fun r => w_m r / rho_water (w_rf r)) rows) d k /\
  nth k (flown_heat_MJ dt rows) 0 = amount (at_row heatflow rows) d k / 1000 /\
  nth k (flown_heat_kWh dt rows) 0 = amount (at_row heatflow rows) d k / 3600.
Proof.
  intros rows dt k L K d. unfold flown_mass, flown_volume, flown_heat_kWh, flown_heat_MJ.
  rewrite !map_div_nth, !reading by assumption. repeat split; try reflexivity.
  fold d. field.
Qed.

(** The positive-only readings are the running sums of the positive part of the flow, in the same
    units. *)
Theorem C49_positive_readings : forall rows dt k, List.length rows = List.length dt ->
  (k < List.length rows)%nat ->
  let d := fun i => nth i dt 0 in
  nth k (flown_mass_pos dt rows) 0 = amount (at_row (fun r => Rmax 0 (w_m r)) rows) d k /\
  nth k (flown_volume_pos dt rows) 0 =
    amount (at_row (fun r => Rmax 0 (w_m r) / rho_water (w_rf r)) rows) d k /\
  nth k (flown_heat_pos_MJ dt rows) 0 = amount (at_row (fun r => Rmax 0 (heatflow r)) rows) d k / 1000 /\
  nth k (flown_heat_pos_kWh dt rows) 0 = amount (at_row (fun r => Rmax 0 (heatflow r)) rows) d k / 3600.
Proof.
  intros rows dt k L K d.
  assert (PM : forall v, pos_only v = Rmax 0 v).
  { intros v. unfold pos_only, Rmax. destruct (Rlt_dec v 0), (Rle_dec 0 v); lra. }
  assert (V : flown_volume_pos dt rows =
    cumsum (map2 Rmult (map (fun r => pos_only (w_m r) / rho_water (w_rf r)) rows) dt)).
  { clear. unfold flown_volume_pos. f_equal. revert dt.
    induction rows as [|r rows IH]; intros [|x dt]; try reflexivity.
    cbn. f_equal; [unfold Rdiv; ring|apply IH]. }
  rewrite V. unfold flown_mass_pos, flown_heat_pos_kWh, flown_heat_pos_MJ.
  rewrite !map_div_nth, !reading by assumption. fold d.
  assert (E : forall f g : row -> R, (forall r, f r = g r) -> amount (at_row f rows) d k = amount (at_row g rows) d k).
  { intros f g H. apply amount_ext. intros i _. unfold at_row. rewrite H. reflexivity. }
  rewrite (E (fun r => pos_only (w_m r)) (fun r => Rmax 0 (w_m r)) (fun r => PM (w_m r))).
  rewrite (E (fun r => pos_only (w_m r) / rho_water (w_rf r)) (fun r => Rmax 0 (w_m r) / rho_water (w_rf r)))
    by (intros r; rewrite PM; reflexivity).
  rewrite (E (fun r => pos_only (heatflow r)) (fun r => Rmax 0 (heatflow r)) (fun r => PM (heatflow r))).
  repeat split. field.
Qed.
Print Assumptions C49_positive_readings.

(** The heat flow has the sign of mass flow times temperature difference, and is their product
    with the mean heat capacity. *)
Theorem C49_heatflow : forall r, 0 <= w_rf r <= 100 -> 0 <= w_ff r <= 100 ->
  exists cp, 4170 < cp < 4225 /\ heatflow r = (w_ff r - w_rf r) * w_m r * cp / 1000.
Proof.
  intros r A B. exists ((cp_water (w_rf r) + cp_water (w_ff r)) / 2).
  destruct (C18_bands (w_rf r) A) as (_ & _ & CA & _). destruct (C18_bands (w_ff r) B) as (_ & _ & CB & _).
  split; [lra|]. unfold heatflow. field.
Qed.

(** Rows in which time does not run backwards. *)
Definition steps_ok (dt : list R) : Prop := Forall (fun d => 0 <= d) dt.

Lemma step_nonneg dt i : steps_ok dt -> 0 <= nth i dt 0.
Proof.
  intro S. destruct (nth_in_or_default i dt 0) as [N|N]; [|rewrite N; lra].
  exact (proj1 (Forall_forall _ dt) S _ N).
Qed.

Lemma pos_nonneg v : 0 <= pos_only v.
Proof. unfold pos_only. destruct (Rlt_dec v 0); lra. Qed.

Lemma volume_pos_as rows dt : List.length rows = List.length dt ->
  flown_volume_pos dt rows =
  cumsum (map2 Rmult (map (fun r => pos_only (w_m r) / rho_water (w_rf r)) rows) dt).
Proof.
  intro L. unfold flown_volume_pos. f_equal. revert dt L.
  induction rows as [|r rows IH]; intros [|d dt] L; try discriminate; [reflexivity|].
  cbn. f_equal; [unfold Rdiv; ring|]. apply IH. now injection L.
Qed.

(** C49: the positive-only readings never fall. *)
Theorem C49_monotone : forall rows dt k, List.length rows = List.length dt -> steps_ok dt ->
  Forall (fun r => 0 <= w_rf r <= 100) rows -> (S k < List.length rows)%nat ->
  nth k (flown_mass_pos dt rows) 0 <= nth (S k) (flown_mass_pos dt rows) 0 /\
  nth k (flown_volume_pos dt rows) 0 <= nth (S k) (flown_volume_pos dt rows) 0 /\
  nth k (flown_heat_pos_MJ dt rows) 0 <= nth (S k) (flown_heat_pos_MJ dt rows) 0 /\
  nth k (flown_heat_pos_kWh dt rows) 0 <= nth (S k) (flown_heat_pos_kWh dt rows) 0.
Proof.
  intros rows dt k L S T K.
  assert (G : forall f : row -> R, 0 <= at_row f rows (Datatypes.S k) ->
    nth k (cumsum (map2 Rmult (map f rows) dt)) 0 <= nth (Datatypes.S k) (cumsum (map2 Rmult (map f rows) dt)) 0).
  { intros f F. rewrite !reading by lia || assumption. cbn [amount].
    pose proof (step_nonneg dt (Datatypes.S k) S). nra. }
  rewrite volume_pos_as by exact L. unfold flown_heat_pos_kWh, flown_heat_pos_MJ, flown_mass_pos.
  rewrite !map_div_nth.
  assert (H : nth k (cumsum (map2 Rmult (map (fun r => pos_only (heatflow r)) rows) dt)) 0 <=
    nth (Datatypes.S k) (cumsum (map2 Rmult (map (fun r => pos_only (heatflow r)) rows) dt)) 0)
    by (apply G, pos_nonneg).
  split; [apply G, pos_nonneg|]. split; [|lra].
  apply G. unfold at_row.
  assert (W : 0 <= w_rf (nth (Datatypes.S k) rows r0) <= 100).
  { rewrite Forall_forall in T. apply T, nth_In, K. }
  destruct (C18_bands _ W) as (R1 & _).
  apply Rmult_le_pos; [apply pos_nonneg|]. left. apply Rinv_0_lt_compat. lra.
Qed.

(** The metered flow in the other direction. *)
Definition reversed (r : row) : row := mkRow (- w_m r) (w_ff r) (w_rf r).

Lemma pos_split v : v = pos_only v - pos_only (- v).
Proof. unfold pos_only. destruct (Rlt_dec v 0); destruct (Rlt_dec (- v) 0); lra. Qed.

Lemma amount_minus u v w d k : (forall i, (i <= k)%nat -> u i = v i - w i) ->
  amount u d k = amount v d k - amount w d k.
Proof.
  intro H. induction k as [|k IH]; cbn; [rewrite H by lia; ring|].
  rewrite IH, (H (S k)) by (intros; apply H; lia) || lia. ring.
Qed.

Lemma heatflow_rev r : heatflow (reversed r) = - heatflow r.
Proof. unfold heatflow, reversed. cbn. field. Qed.

(** C49: net reading = reading of the forward part - reading of the backward part. *)
Theorem C49_net : forall rows dt k, List.length rows = List.length dt -> (k < List.length rows)%nat ->
  let back := map reversed rows in
  nth k (flown_mass dt rows) 0 = nth k (flown_mass_pos dt rows) 0 - nth k (flown_mass_pos dt back) 0 /\
  nth k (flown_volume dt rows) 0 =
    nth k (flown_volume_pos dt rows) 0 - nth k (flown_volume_pos dt back) 0 /\
  nth k (flown_heat_MJ dt rows) 0 =
    nth k (flown_heat_pos_MJ dt rows) 0 - nth k (flown_heat_pos_MJ dt back) 0.
Proof.
  intros rows dt k L K back. assert (LB : List.length back = List.length dt) by (unfold back; now rewrite map_length).
  assert (KB : (k < List.length back)%nat) by (unfold back; now rewrite map_length).
  assert (AB : forall f i, (i <= k)%nat -> at_row f back i = f (reversed (nth i rows r0))).
  { intros f i I. unfold at_row, back. f_equal.
    rewrite (nth_indep _ r0 (reversed r0)) by (rewrite map_length; lia). apply map_nth. }
  rewrite !volume_pos_as by assumption.
  unfold flown_mass, flown_mass_pos, flown_volume, flown_heat_MJ, flown_heat_pos_MJ.
  rewrite !map_div_nth, !reading by assumption.
  split; [|split].
  - apply amount_minus. intros i I. rewrite AB by exact I. unfold at_row. cbn. apply pos_split.
  - apply amount_minus. intros i I. rewrite AB by exact I. unfold at_row. cbn.
    rewrite (pos_split (w_m (nth i rows r0))) at 1. unfold Rdiv. ring.
  - rewrite <- Rdiv_minus_distr. f_equal.
    apply amount_minus. intros i I. rewrite AB by exact I. unfold at_row. rewrite heatflow_rev.
    apply pos_split.
Qed.

(** C49: given the step sizes, splitting a record into two pieces does not change the readings:
    the second piece continues from the last reading of the first. *)
Lemma last_shift (a b : R) l : last (a :: l) b = last l a.
Proof.
  revert a b. induction l as [|c l IH]; intros a b; [reflexivity|].
  change (last (a :: c :: l) b) with (last (c :: l) b). rewrite (IH c b), (IH c a). reflexivity.
Qed.
Lemma cumsum_from_app a u v : cumsum_from a (u ++ v) =
  cumsum_from a u ++ cumsum_from (last (cumsum_from a u) a) v.
Proof.
  revert a. induction u as [|x u IH]; intro a; [reflexivity|]. cbn [app cumsum_from].
  rewrite IH, last_shift. reflexivity.
Qed.

Lemma cumsum_from_shift a l : cumsum_from a l = map (fun v => a + v) (cumsum l).
Proof.
  unfold cumsum. assert (G : forall b, cumsum_from (a + b) l = map (fun v => a + v) (cumsum_from b l)).
  { induction l as [|x l IH]; intro b; [reflexivity|]. cbn [cumsum_from map]. f_equal; [ring|].
    rewrite <- IH. f_equal. ring. }
  rewrite <- G. f_equal. ring.
Qed.

Lemma map2_app {A B C} (f : A -> B -> C) a1 : forall b1 a2 b2, List.length a1 = List.length b1 ->
  map2 f (a1 ++ a2) (b1 ++ b2) = map2 f a1 b1 ++ map2 f a2 b2.
Proof.
  induction a1 as [|x a1 IH]; intros [|y b1] a2 b2 L; try discriminate; [reflexivity|].
  cbn. f_equal. apply IH. now injection L.
Qed.

Theorem C49_split_steps : forall r1 r2 d1 d2, List.length r1 = List.length d1 ->
  flown_mass (d1 ++ d2) (r1 ++ r2) =
    flown_mass d1 r1 ++ map (fun v => last (flown_mass d1 r1) 0 + v) (flown_mass d2 r2) /\
  flown_heat_MJ (d1 ++ d2) (r1 ++ r2) =
    flown_heat_MJ d1 r1 ++ map (fun v => last (flown_heat_MJ d1 r1) 0 + v) (flown_heat_MJ d2 r2).
Proof.
  intros r1 r2 d1 d2 L.
  assert (G : forall f : row -> R, cumsum (map2 Rmult (map f (r1 ++ r2)) (d1 ++ d2)) =
    cumsum (map2 Rmult (map f r1) d1) ++
    map (fun v => last (cumsum (map2 Rmult (map f r1) d1)) 0 + v) (cumsum (map2 Rmult (map f r2) d2))).
  { intro f. rewrite map_app, map2_app by (now rewrite map_length). unfold cumsum at 1.
    rewrite cumsum_from_app. f_equal. apply cumsum_from_shift. }
  split; [apply G|]. unfold flown_heat_MJ. rewrite G, map_app. f_equal. rewrite !map_map.
  assert (LM : forall l, last (map (fun v => v / 1000) l) 0 = last l 0 / 1000).
  { induction l as [|a l IH]; [cbn; unfold Rdiv; ring|]. destruct l; [reflexivity|]. exact IH. }
  rewrite LM. apply map_ext. intro v. unfold Rdiv. ring.
Qed.

(** ** What is wrong with the step sizes *)

(** The flow in row [k >= 1] is the one used in the step from [t_(k-1)] to [t_k] (solver: row
    [stepnum] is written during the step that ends at [time_vec[stepnum]]), so the amount that
    passed during the simulation is this sum. *)
Fixpoint passed (v t : nat -> R) (n : nat) : R :=
  match n with O => 0 | S k => passed v t k + v (S k) * (t (S k) - t k) end.

Lemma diffs_length a l : List.length (diffs (a :: l)) = List.length l.
Proof. revert a. induction l as [|b l IH]; intro a; [reflexivity|]. cbn [diffs List.length]. f_equal. apply IH. Qed.

Lemma diffs_nth a l : forall k, (k < List.length l)%nat ->
  nth k (diffs (a :: l)) 0 = nth (S k) (a :: l) 0 - nth k (a :: l) 0.
Proof.
  revert a. induction l as [|b l IH]; intros a k K; [cbn in K; lia|].
  destruct k as [|k]; [reflexivity|].
  change (nth (S k) (diffs (a :: b :: l)) 0) with (nth k (diffs (b :: l)) 0).
  rewrite IH by (cbn in K; lia). reflexivity.
Qed.

Lemma step_vec_length ts : ts <> [] -> List.length (step_vec ts) = List.length ts.
Proof.
  destruct ts as [|a l]; [congruence|]. intros _. unfold step_vec. rewrite app_length, diffs_length.
  cbn. lia.
Qed.

Lemma last_nth_R (l : list R) d : l <> [] -> last l d = nth (List.length l - 1) l d.
Proof.
  induction l as [|a l IH]; intro N; [congruence|]. destruct l as [|b l]; [reflexivity|].
  change (last (a :: b :: l) d) with (last (b :: l) d). rewrite IH by discriminate.
  cbn [List.length]. replace (S (S (List.length l)) - 1)%nat with (S (S (List.length l) - 1)) by lia. reflexivity.
Qed.

Lemma step_vec_nth a l : l <> [] -> forall k, (k <= List.length l)%nat ->
  nth k (step_vec (a :: l)) 0 =
  if Nat.ltb k (List.length l) then nth (S k) (a :: l) 0 - nth k (a :: l) 0
  else nth (List.length l) (a :: l) 0 - nth (List.length l - 1) (a :: l) 0.
Proof.
  intros N k K. unfold step_vec. assert (P : (0 < List.length l)%nat) by (destruct l; [congruence|cbn; lia]).
  destruct (Nat.ltb_spec k (List.length l)) as [H|H].
  - rewrite app_nth1 by (rewrite diffs_length; exact H). now apply diffs_nth.
  - rewrite app_nth2 by (rewrite diffs_length; exact H). rewrite diffs_length.
    replace (k - List.length l)%nat with 0%nat by lia. cbn [nth].
    rewrite last_nth_R.
    + rewrite diffs_length, diffs_nth by lia.
      replace (S (List.length l - 1)) with (List.length l) by lia. reflexivity.
    + intro Z. apply (f_equal (@List.length R)) in Z. rewrite diffs_length in Z. cbn in Z. lia.
Qed.

(** Constant flow: the reading at time [t_k] is that of time [t_(k+1)]; the last reading counts
    the last step twice. *)
Theorem C49_ahead_refuted : forall m rows a l k,
  List.length rows = List.length (a :: l) -> l <> [] -> Forall (fun r => w_m r = m) rows ->
  let t := fun i => nth i (a :: l) 0 in
  let n := List.length l in
  ((k < n)%nat -> nth k (flown_mass (step_vec (a :: l)) rows) 0 = m * (t (S k) - t O)) /\
  nth n (flown_mass (step_vec (a :: l)) rows) 0 = m * (t n - t O) + m * (t n - t (n - 1)%nat).
Proof.
  intros m rows a l k L N F t n.
  assert (P : (0 < n)%nat) by (unfold n; destruct l; [congruence|cbn; lia]).
  assert (LS : List.length rows = List.length (step_vec (a :: l)))
    by (rewrite step_vec_length; [exact L|discriminate]).
  cbn [List.length] in L. fold n in L.
  assert (M : forall i, (i <= n)%nat -> at_row w_m rows i = m).
  { intros i I. rewrite Forall_forall in F. apply F, nth_In. lia. }
  assert (A : forall j, (j < n)%nat ->
    amount (at_row w_m rows) (fun i => nth i (step_vec (a :: l)) 0) j = m * (t (S j) - t O)).
  { induction j as [|j IH]; intro J; cbn [amount].
    - rewrite M by lia. rewrite step_vec_nth by (exact N || lia). fold n.
      destruct (Nat.ltb_spec 0 n); [|lia]. reflexivity.
    - rewrite IH by lia. rewrite M by lia. rewrite step_vec_nth by (exact N || (fold n; lia)). fold n.
      destruct (Nat.ltb_spec (S j) n); [|lia]. fold (t (S (S j))). fold (t (S j)). ring. }
  split.
  - intro K. rewrite (proj1 (C49_readings rows _ k LS ltac:(lia))). now apply A.
  - rewrite (proj1 (C49_readings rows _ n LS ltac:(lia))).
    destruct n as [|j] eqn:E; [lia|]. cbn [amount]. rewrite A by lia. rewrite M by lia.
    rewrite step_vec_nth by (exact N || (fold n; lia)). fold n. rewrite E.
    destruct (Nat.ltb_spec (S j) (S j)); [lia|]. reflexivity.
Qed.

(** ... so every meter with a constant positive flow reads too much at the end. *)
Theorem C49_total_refuted : forall m rows a l,
  List.length rows = List.length (a :: l) -> l <> [] -> Forall (fun r => w_m r = m) rows ->
  let t := fun i => nth i (a :: l) 0 in
  let n := List.length l in
  0 < m -> t (n - 1)%nat < t n ->
  passed (at_row w_m rows) t n = m * (t n - t O) /\
  passed (at_row w_m rows) t n < nth n (flown_mass (step_vec (a :: l)) rows) 0.
Proof.
  intros m rows a l L N F t n M T.
  destruct (C49_ahead_refuted m rows a l 0 L N F) as [_ A]. fold t n in A. cbv zeta in A. fold n in A. fold t in A.
  assert (P : forall j, (j <= n)%nat -> passed (at_row w_m rows) t j = m * (t j - t O)).
  { induction j as [|j IH]; intro J; cbn [passed]; [ring|].
    rewrite IH by lia. replace (at_row w_m rows (S j)) with m; [ring|].
    symmetry. rewrite Forall_forall in F. apply F, nth_In. cbn [List.length] in L. fold n in L. lia. }
  rewrite P by lia. split; [reflexivity|]. change (nth n (flown_mass (step_vec (a :: l)) rows) 0 =
    m * (t n - t O) + m * (t n - t (n - 1)%nat)) in A. rewrite A. nra.
Qed.

(** With constant step size the error at the end is the flow of the initial row times the step. *)
Theorem C49_constant_steps_partial : forall h rows a l,
  List.length rows = List.length (a :: l) -> l <> [] ->
  let t := fun i => nth i (a :: l) 0 in
  let n := List.length l in
  (forall k, (k < n)%nat -> t (S k) - t k = h) ->
  nth n (flown_mass (step_vec (a :: l)) rows) 0 =
    passed (at_row w_m rows) t n + h * at_row w_m rows 0 /\
  nth n (flown_heat_MJ (step_vec (a :: l)) rows) 0 =
    (passed (at_row heatflow rows) t n + h * at_row heatflow rows 0) / 1000.
Proof.
  intros h rows a l L N t n H.
  assert (P : (0 < n)%nat) by (unfold n; destruct l; [congruence|cbn; lia]).
  assert (LS : List.length rows = List.length (step_vec (a :: l)))
    by (rewrite step_vec_length; [exact L|discriminate]).
  cbn [List.length] in L. fold n in L.
  assert (D : forall k, (k <= n)%nat -> nth k (step_vec (a :: l)) 0 = h).
  { intros k K. rewrite step_vec_nth by assumption. fold n. destruct (Nat.ltb_spec k n).
    - now apply H.
    - specialize (H (n - 1)%nat ltac:(lia)). replace (S (n - 1)) with n in H by lia. exact H. }
  assert (G : forall v j, (j <= n)%nat ->
    amount v (fun i => nth i (step_vec (a :: l)) 0) j = passed v t j + h * v O).
  { intro v. induction j as [|j IH]; intro J; cbn [amount passed].
    - rewrite D by lia. ring.
    - rewrite IH by lia. rewrite D by lia. rewrite H by lia. ring. }
  destruct (C49_readings rows _ n LS ltac:(lia)) as (A & _ & B & _). cbv zeta in A, B.
  rewrite A, B, !G by lia. split; reflexivity.
Qed.

(** With varying steps each flow is weighted with the size of the next step: one second of flow
    before a long step without flow is metered as 100 kg instead of 1 kg. *)
Theorem C49_shifted_refuted : exists rows ts,
  let t := fun i => nth i ts 0 in
  List.length rows = List.length ts /\ passed (at_row w_m rows) t 2 = 1 /\
  nth 2 (flown_mass (step_vec ts) rows) 0 = 100.
Proof.
  exists [mkRow 0 20 20; mkRow 1 20 20; mkRow 0 20 20], [0; 1; 101].
  unfold flown_mass, step_vec, cumsum, at_row. cbn. repeat split; ring.
Qed.

(** Metering the two halves of a run separately counts the last step of each half twice. *)
Theorem C49_split_refuted : exists rows1 rows2 ts1 ts2,
  last ts1 0 = hd 0 ts2 /\ last rows1 r0 = hd r0 rows2 /\
  List.length rows1 = List.length ts1 /\ List.length rows2 = List.length ts2 /\
  last (flown_mass (step_vec ts1) rows1) 0 + last (flown_mass (step_vec ts2) rows2) 0 <>
  last (flown_mass (step_vec (ts1 ++ tl ts2)) (rows1 ++ tl rows2)) 0.
Proof.
  exists [mkRow 1 20 20; mkRow 1 20 20], [mkRow 1 20 20; mkRow 1 20 20], [0; 1], [1; 2].
  unfold flown_mass, step_vec, cumsum. cbn. repeat split. lra.
Qed.

Example C49_case : steps_ok (step_vec [0; 1; 3]) /\ step_vec [0; 1; 3] = [1; 2; 2] /\
  Forall (fun r => 0 <= w_rf r <= 100) [mkRow 1 60 40; mkRow (-1) 60 40; mkRow 2 60 40].
Proof.
  assert (E : step_vec [0; 1; 3] = [1; 2; 2]).
  { unfold step_vec. cbn. repeat f_equal; lra. }
  split; [|split; [exact E|]].
  - rewrite E. unfold steps_ok. repeat constructor; lra.
  - repeat constructor; cbn; lra.
Qed.

(** ** C50: names *)

Section Names.
Context {D : Type}.
Implicit Types (g : registry D).

Definition stored (t : mtype) (n : string) (d : D) g : Prop := get n (g_mem g t) = Some d.
Definition free (t : mtype) (n : string) g : Prop := get n (g_mem g t) = None.

Lemma get_set k v n (d : dict D) : get n (set k v d) = if String.eqb k n then Some v else get n d.
Proof.
  induction d as [|[m w] d IH]; cbn [set get]; [reflexivity|].
  destruct (String.eqb_spec m k) as [->|E].
  - cbn [get]. destruct (String.eqb k n); reflexivity.
  - cbn [get]. rewrite IH. destruct (String.eqb_spec m n) as [->|E2]; [|reflexivity].
    destruct (String.eqb_spec k n); [congruence|reflexivity].
Qed.

Lemma eqb_type a b : mtype_eqb a b = true <-> a = b.
Proof. destruct a, b; cbn; split; congruence. Qed.

(** C50: all types but volume flow meters.  A free name is accepted and stored, a used one
    rejected; nothing else changes. *)
Theorem C50_names_partial : forall g t n d, t <> Volumeflow ->
  (free t n g <-> add t n d g <> None) /\
  (forall g', add t n d g = Some g' ->
     stored t n d g' /\ forall t' n', (t', n') <> (t, n) -> get n' (g_mem g' t') = get n' (g_mem g t')).
Proof.
  intros g t n d V. assert (C : checked t = t) by (destruct t; reflexivity || congruence). split.
  - unfold free, add. rewrite C. destruct (get n (g_mem g t)); split; congruence.
  - intros g' A. unfold add in A. rewrite C in A. destruct (get n (g_mem g t)) eqn:E; [discriminate|].
    injection A as <-. unfold stored. cbn [g_mem]. split.
    + replace (mtype_eqb t t) with true by (symmetry; now apply eqb_type).
      rewrite get_set, String.eqb_refl. reflexivity.
    + intros t' n' NE. destruct (mtype_eqb t' t) eqn:T; [|reflexivity]. apply eqb_type in T. subst t'.
      rewrite get_set. destruct (String.eqb_spec n n'); [subst; congruence|reflexivity].
Qed.

(** Once stored, a meter of another type than volume flow keeps its data in every later history. *)
Theorem C50_kept : forall l g t n d, t <> Volumeflow -> stored t n d g -> stored t n d (calls g l).
Proof.
  induction l as [|[[u m] e] l IH]; intros g t n d V S; [exact S|].
  cbn [calls fold_left]. apply IH; [exact V|]. unfold try_add. cbn [fst snd].
  destruct (add u m e g) as [g'|] eqn:A; [|exact S]. unfold add in A.
  destruct (get m (g_mem g (checked u))) eqn:G; [discriminate|]. injection A as <-.
  unfold stored. cbn [g_mem]. destruct (mtype_eqb t u) eqn:T; [|exact S]. apply eqb_type in T. subst u.
  rewrite get_set. destruct (String.eqb_spec m n) as [->|E]; [|exact S].
  replace (checked t) with t in G by (destruct t; reflexivity || congruence). unfold stored in S. congruence.
Qed.

(** Volume flow meters: the code looks for the name among the mass flow meters.  A second meter
    with the same name replaces the first one silently ... *)
Theorem C50_overwrite_refuted : forall g n d d', stored Volumeflow n d g -> free Massflow n g ->
  d <> d' -> exists g', add Volumeflow n d' g = Some g' /\ stored Volumeflow n d' g' /\
  ~ stored Volumeflow n d g'.
Proof.
  intros g n d d' S F NE. unfold add. cbn [checked]. rewrite F. eexists. split; [reflexivity|].
  unfold stored in *. cbn [g_mem mtype_eqb]. rewrite get_set, String.eqb_refl.
  split; [reflexivity|congruence].
Qed.
(** ... and a free name is rejected if a mass flow meter has it. *)
Theorem C50_rejected_refuted : forall g n d d', stored Massflow n d g -> free Volumeflow n g ->
  add Volumeflow n d' g = None.
Proof. intros g n d d' S F. unfold add. cbn [checked]. unfold stored in S. now rewrite S. Qed.

(** The disk store only knows the name: meters of different types overwrite each other there. *)
Theorem C50_disk_refuted : forall g k t n d u m, g_disk g = Some k -> t <> u -> t <> Volumeflow ->
  u <> Volumeflow -> free t n g -> free u n g -> d <> m ->
  let g' := calls g [(t, n, d); (u, n, m)] in
  stored t n d g' /\ stored u n m g' /\
  exists k', g_disk g' = Some k' /\ get n k' = Some m /\ get n k' <> Some d.
Proof.
  intros g k t n d u m K TU TV UV FT FU NE.
  assert (CT : checked t = t) by (destruct t; reflexivity || congruence).
  assert (CU : checked u = u) by (destruct u; reflexivity || congruence).
  assert (UT : mtype_eqb u t = false).
  { destruct (mtype_eqb u t) eqn:E; [apply eqb_type in E; congruence|reflexivity]. }
  assert (TU' : mtype_eqb t u = false).
  { destruct (mtype_eqb t u) eqn:E; [apply eqb_type in E; congruence|reflexivity]. }
  assert (TT : mtype_eqb t t = true) by now apply eqb_type.
  assert (UU : mtype_eqb u u = true) by now apply eqb_type.
  unfold free in FT, FU.
  set (g1 := mkReg (fun v => if mtype_eqb v t then set n d (g_mem g v) else g_mem g v)
                   (option_map (set n d) (g_disk g))).
  set (g2 := mkReg (fun v => if mtype_eqb v u then set n m (g_mem g1 v) else g_mem g1 v)
                   (option_map (set n m) (g_disk g1))).
  assert (A1 : add t n d g = Some g1) by (unfold add; rewrite CT, FT; reflexivity).
  assert (A2 : add u n m g1 = Some g2).
  { unfold add. rewrite CU. replace (get n (g_mem g1 u)) with (@None D); [reflexivity|].
    cbn [g1 g_mem]. rewrite UT. now rewrite FU. }
  assert (C : calls g [(t, n, d); (u, n, m)] = g2).
  { cbn [calls fold_left]. unfold try_add. cbn [fst snd]. rewrite A1, A2. reflexivity. }
  rewrite C. unfold stored. cbn [g2 g_mem g_disk g1]. rewrite TU', TT, UU, UT, !get_set, String.eqb_refl.
  split; [reflexivity|]. split; [reflexivity|]. rewrite K. cbn [option_map].
  eexists. split; [reflexivity|]. rewrite get_set, String.eqb_refl. split; congruence.
Qed.
End Names.

Example C50_case :
  let g := calls (empty_registry true) [(Volumeflow, "a"%string, 1); (Massflow, "b"%string, 2)] in
  stored Volumeflow "a"%string 1 g /\ free Massflow "a"%string g /\ stored Massflow "b"%string 2 g /\
  free Volumeflow "b"%string g.
Proof. cbn. repeat split; reflexivity. Qed.

Print Assumptions C49_readings.
Print Assumptions C49_heatflow.
Print Assumptions C49_monotone.
Print Assumptions C49_net.
Print Assumptions C49_split_steps.
Print Assumptions C49_ahead_refuted.
Print Assumptions C49_total_refuted.
Print Assumptions C49_constant_steps_partial.
Print Assumptions C49_shifted_refuted.
Print Assumptions C49_split_refuted.
Print Assumptions C50_names_partial.
Print Assumptions C50_kept.
Print Assumptions C50_overwrite_refuted.
Print Assumptions C50_rejected_refuted.
Print Assumptions C50_disk_refuted.
