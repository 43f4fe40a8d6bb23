(** C151-C153: storage content and demand profiles of the model-predictive CHP controller. *)
From Coq Require Import Reals QArith Qreals List Lra Lia Bool Arith Permutation.
From Verif Require Import MOut MResample MWater MBC LBC MProfile LPoly LPoly2 LWater POut LOut2 PResample PSeries.
Import ListNotations.
Local Open Scope R_scope.

(** ** C151: content of the storage *)

Definition content_q : list Q := 0%Q :: qmul (qadd cp_q [5269252946772499 # 1250000000000]%Q) (qadd rho_q [99988785713136213 # 100000000000000]%Q).
Lemma content_is T : qeval content_q T = T * ((cp_water T + cp_water 0) * (rho_water T + rho_water 0)).
Proof.
  unfold content_q.
  change (Q2R 0 + T * qeval (qmul (qadd cp_q [5269252946772499 # 1250000000000]%Q) (qadd rho_q [99988785713136213 # 100000000000000]%Q)) T
          = T * ((cp_water T + cp_water 0) * (rho_water T + rho_water 0))).
  rewrite Q2R_0, qmul_eval, !qadd_eval, <- cp_is, <- rho_is.
  assert (A : qeval [5269252946772499 # 1250000000000]%Q T = cp_water 0).
  { rewrite cp_is. unfold qeval, cp_q. cbn [map peval]. ring. }
  assert (B : qeval [99988785713136213 # 100000000000000]%Q T = rho_water 0).
  { rewrite rho_is. unfold qeval, rho_q. cbn [map peval]. ring. }
  rewrite A, B. ring.
Qed.
Lemma cell_is V T : cell_content V T = V / 14400000 * qeval content_q T.
Proof. rewrite content_is. unfold cell_content. field. Qed.
Lemma content_increasing x y : 0 <= x -> x < y -> y <= 100 -> qeval content_q x < qeval content_q y.
Proof.
  intros A XY B. apply (qeval_increasing content_q 0 100); try lra.
  intros z Z. apply (check_on_sound _ 0%Q 100%Q (10#1) 10%nat); [qchk | unfold Q2R; cbn; lra].
Qed.

(** A warmer cell holds more heat. *)
Theorem C151_cell V x y : 0 < V -> 0 <= x -> x < y -> y <= 100 -> cell_content V x < cell_content V y.
Proof.
  intros P A XY B. rewrite !cell_is. apply Rmult_lt_compat_l; [lra | apply content_increasing; assumption].
Qed.
Print Assumptions C151_cell.

(** The content is zero exactly for a storage at 0 degC, else positive, and grows with every cell temperature. *)
Theorem C151_zero V temps : 0 < V -> (forall T, In T temps -> 0 <= T <= 100) ->
  0 <= heat_content V temps /\ (heat_content V temps = 0 <-> forall T, In T temps -> T = 0).
Proof.
  intros P. unfold heat_content, lsum.
  assert (Z0 : cell_content V 0 = 0) by (unfold cell_content; field).
  induction temps as [|t r IH]; intros H; cbn [map fold_right].
  - split; [lra|]. split; [intros _ T []|reflexivity].
  - destruct IH as [N E]; [intros T I; apply H; right; exact I|].
    assert (B : 0 <= t <= 100) by (apply H; left; reflexivity).
    assert (C : 0 <= cell_content V t /\ (cell_content V t = 0 <-> t = 0)).
    { destruct (Req_dec t 0) as [->|Q].
      - rewrite Z0. split; [lra|tauto].
      - assert (cell_content V 0 < cell_content V t) by (apply C151_cell; lra). split; [lra|]. split; intros; lra. }
    destruct C as [C1 C2]. split; [lra|]. split.
    + intros S T [<-|I]; [apply C2; lra|]. apply E; [lra|exact I].
    + intros A. rewrite (proj2 C2) by (apply A; left; reflexivity).
      rewrite (proj2 E) by (intros T I; apply A; right; exact I). lra.
Qed.
Print Assumptions C151_zero.

Theorem C151_monotone V cold warm : 0 < V -> Forall2 (fun a b => 0 <= a /\ a <= b /\ b <= 100) cold warm ->
  heat_content V cold <= heat_content V warm /\ (heat_content V cold = heat_content V warm -> cold = warm).
Proof.
  intros P F. unfold heat_content, lsum. induction F as [|a b l m H F IH]; cbn [map fold_right]; [split; [lra|reflexivity]|].
  destruct IH as [L E]. destruct (Req_dec a b) as [->|Q].
  - split; [lra|]. intros S. f_equal. apply E. lra.
  - assert (cell_content V a < cell_content V b) by (apply C151_cell; lra). split; [lra|]. intros S. lra.
Qed.
Print Assumptions C151_monotone.

(** It does not depend on the order of the cells, nor on into how many cells a layer of one temperature is split. *)
Theorem C151_layers V temps temps' : Permutation temps temps' -> heat_content V temps = heat_content V temps'.
Proof.
  intros P. unfold heat_content, lsum. induction P; cbn [map fold_right]; lra.
Qed.
Print Assumptions C151_layers.
Theorem C151_split V T (m : nat) temps : (0 < m)%nat ->
  heat_content (V / INR m) (repeat T m ++ flat_map (fun t => repeat t m) temps) = heat_content V (T :: temps).
Proof.
  intros M. assert (N : INR m <> 0) by (apply not_0_INR; lia).
  assert (R1 : forall t, heat_content (V / INR m) (repeat t m) = cell_content V t).
  { intros t. assert (G : forall k, heat_content (V / INR m) (repeat t k) = INR k / INR m * cell_content V t).
    { induction k as [|k IH]; [unfold heat_content, lsum; cbn; unfold Rdiv; ring|].
      change (cell_content (V / INR m) t + heat_content (V / INR m) (repeat t k) = INR (S k) / INR m * cell_content V t).
      rewrite IH, S_INR. rewrite !cell_is. field. exact N. }
    rewrite G. field. exact N. }
  assert (A : forall a b, heat_content (V / INR m) (a ++ b) = heat_content (V / INR m) a + heat_content (V / INR m) b).
  { intros a b. unfold heat_content. rewrite map_app. apply lsum_app. }
  assert (F : forall l, heat_content (V / INR m) (flat_map (fun t => repeat t m) l) = heat_content V l).
  { induction l as [|t l IH]; [reflexivity|]. cbn [flat_map]. rewrite A, R1, IH. reflexivity. }
  rewrite A, R1, F. reflexivity.
Qed.
Print Assumptions C151_split.
Example C151_ex : heat_content 0.1 [20; 60] < heat_content 0.1 [20; 80] /\ 0 < heat_content 0.1 [20; 60].
Proof.
  assert (P : 0 < 0.1) by lra. split.
  - destruct (C151_monotone 0.1 [20; 60] [20; 80] P) as [L E]; [repeat constructor; lra|].
    destruct L as [L|L]; [exact L|]. specialize (E L). injection E as E. lra.
  - destruct (C151_zero 0.1 [20; 60] P) as [L E]; [intros T [<-|[<-|[]]]; lra|].
    destruct L as [L|L]; [exact L|]. symmetry in L. rewrite E in L. specialize (L 20 (or_introl eq_refl)). lra.
Qed.

(** ** C152: profiles last for the whole run *)

Lemma series_bins f p c c' : bins f (series p c) = bins f (series p c').
Proof.
  unfold bins. assert (F : t_first (series p c) = t_first (series p c')).
  { unfold t_first, series. destruct (p_n p); reflexivity. }
  assert (L : t_last (series p c) = t_last (series p c')).
  { unfold t_last, series. generalize (seq 0 (p_n p)). induction l as [|x [|y l] IH]; [reflexivity|reflexivity|].
    cbn [map]. cbn [map] in IH. exact IH. }
  rewrite F, L. reflexivity.
Qed.
Lemma t_first_series p c : (0 < p_n p)%nat -> t_first (series p c) = p_t0 p.
Proof. intros N. unfold t_first, series. destruct (p_n p); [lia|]. cbn [seq map hd fst]. lia. Qed.
Lemma t_last_series p c : (0 < p_n p)%nat -> t_last (series p c) = (p_t0 p + (p_n p - 1) * p_d p)%nat.
Proof.
  intros N. unfold t_last, series. destruct (p_n p) as [|n]; [lia|]. rewrite seq_S, map_app. cbn [map].
  rewrite last_last. cbn [fst]. do 2 f_equal. lia.
Qed.
(** Every bin between the first and the last value holds a value, when the period is not longer than the bins. *)
Lemma bin_full f p c k : (0 < p_d p <= f)%nat -> (0 < p_n p)%nat -> In k (bins f (series p c)) ->
  in_bin f (series p c) k <> [].
Proof.
  intros [D F] N I. unfold bins in I. rewrite t_first_series, t_last_series in I by exact N.
  apply in_seq in I. set (t0 := p_t0 p) in *. set (d := p_d p) in *. set (L := (p_n p - 1)%nat) in *.
  assert (X : exists i, (i <= L)%nat /\ ((t0 + i * d) / f = k)%nat).
  { destruct (Nat.eq_dec k (t0 / f)) as [->|Q]; [exists 0%nat; split; [lia|f_equal; lia]|].
    assert (FP : f <> 0%nat) by lia.
    assert (K1 : (t0 < k * f)%nat).
    { pose proof (Nat.div_mod t0 f FP). pose proof (Nat.mod_upper_bound t0 f FP).
      assert (S (t0 / f) <= k)%nat by lia. pose proof (Nat.mul_le_mono_r _ _ f H1). lia. }
    assert (K2 : (k * f <= t0 + L * d)%nat).
    { assert (k <= (t0 + L * d) / f)%nat.
      { assert (t0 / f <= (t0 + L * d) / f)%nat by (apply Nat.div_le_mono; lia). lia. }
      pose proof (Nat.mul_le_mono_r _ _ f H). pose proof (Nat.mul_div_le (t0 + L * d) f FP). lia. }
    (* first sample not before the edge *)
    set (g := (k * f - t0 + d - 1)%nat).
    assert (DP : d <> 0%nat) by lia.
    pose proof (Nat.div_mod g d DP) as E. pose proof (Nat.mod_upper_bound g d DP) as M.
    exists (g / d)%nat. set (i := (g / d)%nat) in *.
    assert (G : (k * f <= t0 + i * d < k * f + d)%nat).
    { unfold g in E, M. rewrite (Nat.mul_comm i d). split; lia. }
    split.
    - apply Nat.lt_succ_r. apply (Nat.mul_lt_mono_pos_r d); [lia|]. rewrite Nat.mul_succ_l. lia.
    - symmetry. apply (Nat.div_unique _ f k (t0 + i * d - k * f)%nat); [lia|]. rewrite (Nat.mul_comm f k). lia. }
  destruct X as (i & Hi & E). intros C.
  assert (In (p_val p c i) (in_bin f (series p c) k)) as J; [|rewrite C in J; destruct J].
  apply in_bin_In. exists (t0 + i * d)%nat. split; [|exact E]. unfold series. apply in_map_iff. exists i.
  split; [reflexivity|]. apply in_seq. unfold L in Hi. lia.
Qed.
Lemma bin_mean_full f p c k : (0 < p_d p <= f)%nat -> (0 < p_n p)%nat -> In k (bins f (series p c)) ->
  bin_mean f (series p c) k = Some (lmean (in_bin f (series p c) k)).
Proof.
  intros D N I. pose proof (bin_full f p c k D N I) as F. unfold bin_mean. destruct (in_bin f (series p c) k); [contradiction|reflexivity].
Qed.

Lemma means_nth f p c i : (0 < p_d p <= f)%nat -> (0 < p_n p)%nat -> (i < length (bins f (series p c)))%nat ->
  nth_error (by_means f (series p c)) i = Some (Some (lmean (in_bin f (series p c) (p_t0 p / f + i)))).
Proof.
  intros D N L. rewrite (nth_error_nth' _ None) by (rewrite by_means_length; exact L). f_equal.
  rewrite by_means_nth by exact L. apply interp_kept; [rewrite map_length; exact L|].
  rewrite (nth_map_gen _ _ _ 0%nat None L), bins_nth by exact L. rewrite t_first_series by exact N.
  apply bin_mean_full; [exact D | exact N|]. replace (p_t0 p / f + i)%nat with (nth i (bins f (series p c)) 0%nat).
  - apply nth_In. exact L.
  - rewrite bins_nth, t_first_series by assumption. reflexivity.
Qed.
Lemma nth_looked size j (l : list (option R)) i : (i < size)%nat -> nth_error (looked_at size j l) i = nth_error l (j + i).
Proof.
  intros H. unfold looked_at. revert j l size H. induction i as [|i IH]; intros j l size H.
  - destruct size; [lia|]. rewrite Nat.add_0_r. revert l. induction j as [|j IHj]; intros [|x l]; try reflexivity.
    cbn [skipn nth_error]. apply IHj.
  - destruct size as [|size]; [lia|]. assert (G : forall l' : list (option R), nth_error (firstn (S size) l') (S i) = nth_error (firstn size (tl l')) i).
    { intros [|x l']; [destruct i, size; reflexivity|reflexivity]. }
    rewrite G. replace (tl (skipn j l)) with (skipn (S j) l).
    + rewrite IH by lia. f_equal. lia.
    + clear. revert l. induction j as [|j IHj]; intros [|x l]; try reflexivity. cbn [skipn] in *. rewrite <- IHj. reflexivity.
Qed.

Lemma process_opt_taken sl f tf p l : process_opt sl f tf p = Taken l ->
  (p_d p <= f)%nat /\ tf <= INR ((length (bins f (series p PelUser)) - 1) * f) /\ l = (fun c => by_means f (series p c)).
Proof.
  unfold process_opt, unit_check. destruct (Nat.ltb_spec f (p_d p)); [discriminate|].
  destruct (all_below _ _); [destruct sl as [[]|]; try discriminate|];
    destruct (Rle_dec _ _); try discriminate; intros E; injection E as <-; auto.
Qed.

(** Accepted profiles have entries for every optimisation of the run: number [j] is made at time [j f], see C76.
    The horizon is cut only by the end of the profile, and each entry is the mean over the values of its period;
    interpolation has nothing to fill. *)
Theorem C152_optimisation sl f tf p l c size j : process_opt sl f tf p = Taken l ->
  (0 < p_d p)%nat -> (0 < p_n p)%nat -> (0 < size)%nat -> INR (j * f) < tf ->
  let N := length (l c) in
  (j + 1 < N)%nat /\ length (looked_at size j (l c)) = Nat.min size (N - j) /\
  forall i, (i < Nat.min size (N - j))%nat ->
    nth_error (looked_at size j (l c)) i = Some (Some (lmean (in_bin f (series p c) (p_t0 p / f + (j + i))))) /\
    in_bin f (series p c) (p_t0 p / f + (j + i)) <> [].
Proof.
  intros H D NN SZ J. destruct (process_opt_taken _ _ _ _ _ H) as (F & T & ->). cbv zeta beta.
  set (N := length (by_means f (series p c))).
  assert (LB : length (bins f (series p c)) = N) by (unfold N; rewrite by_means_length; reflexivity).
  rewrite (series_bins f p PelUser c), LB in T.
  assert (K : (j < N - 1)%nat).
  { apply (Nat.mul_lt_mono_pos_r f); [lia|]. apply INR_lt. lra. }
  split; [lia|]. split.
  - unfold looked_at. rewrite firstn_length, skipn_length. fold N. reflexivity.
  - intros i Hi. rewrite nth_looked by lia. split.
    + apply means_nth; [lia | lia | rewrite LB; lia].
    + apply bin_full; [lia | lia|]. replace (p_t0 p / f + (j + i))%nat with (nth (j + i) (bins f (series p c)) 0%nat).
      * apply nth_In. rewrite LB. lia.
      * rewrite bins_nth, t_first_series by (rewrite ?LB; lia). reflexivity.
Qed.
Print Assumptions C152_optimisation.

(** Each step of the run finds its entry, the one of the second nearest to its time. *)
Theorem C152_control sl tf p l c t : process_ctrl sl tf p = Taken l -> (0 < p_n p)%nat -> 0 <= t < tf ->
  exists i, step_value t (l c) = Some (Some (p_val p c i)) /\ Rabs (INR i - t) <= 1 / 2.
Proof.
  intros H NN T. unfold process_ctrl, unit_check in H. destruct (Nat.eqb_spec (p_d p) 1) as [D|]; [|discriminate].
  assert (G : tf <= INR ((p_n p - 1) * p_d p) /\ l = (fun c => map (fun o => Some (snd o)) (series p c))).
  { destruct (all_below _ _); [destruct sl as [[]|]; try discriminate|];
      destruct (Rle_dec _ _); try discriminate; injection H as <-; auto. }
  destruct G as [G ->]. rewrite D, Nat.mul_1_r in G. exists (pyround t).
  pose proof (round_near t (proj1 T)) as RN. split.
  - unfold step_value, series. rewrite map_map. cbn [snd]. erewrite map_nth_error; [reflexivity|].
    rewrite (nth_error_nth' _ 0%nat).
    + rewrite seq_nth; [reflexivity|]. assert (INR (pyround t) < INR (S (p_n p - 1))) by (rewrite S_INR; lra). apply INR_lt in H0. lia.
    + rewrite seq_length. assert (INR (pyround t) < INR (S (p_n p - 1))) by (rewrite S_INR; lra). apply INR_lt in H0. lia.
  - apply Rabs_le. lra.
Qed.
Print Assumptions C152_control.

(** Profiles without participating users are to be given with zeros in column [pel_user]; they are refused unless a
    keyword is given that the error message for a missing profile does not name, with a KeyError when it is left out. *)
Theorem C152_zero_refuted f tf p : (forall i, (i < p_n p)%nat -> p_val p PelUser i = 0) -> (p_d p <= f)%nat ->
  process_opt None f tf p = Missing /\ process_opt (Some false) f tf p = Units /\
  (p_d p = 1%nat -> process_ctrl None tf p = Missing /\ process_ctrl (Some false) tf p = Units).
Proof.
  intros H D. assert (A : all_below 1000 (map snd (series p PelUser)) = true).
  { unfold all_below, series. rewrite map_map. cbn [snd]. apply forallb_forall. intros v I.
    apply in_map_iff in I. destruct I as (i & <- & I). apply in_seq in I. rewrite H by lia. destruct (Rlt_dec 0 1000); [reflexivity|lra]. }
  unfold process_opt, process_ctrl, unit_check. rewrite A. destruct (Nat.ltb_spec f (p_d p)); [lia|].
  split; [reflexivity|]. split; [reflexivity|]. intros ->. split; reflexivity.
Qed.
Print Assumptions C152_zero_refuted.

(** ** C153: the values belong to the time they are used for *)

Lemma in_bin_profile p c m q j : (0 < p_d p)%nat -> (0 < m)%nat -> (p_t0 p mod (m * p_d p) = q * p_d p)%nat ->
  (q <= j * m)%nat -> ((j + 1) * m - q <= p_n p)%nat ->
  in_bin (m * p_d p) (series p c) (p_t0 p / (m * p_d p) + j) = map (p_val p c) (seq (j * m - q) m).
Proof.
  intros D M Q J L. set (d := p_d p) in *. set (f := (m * d)%nat) in *. assert (F : f <> 0%nat) by (unfold f; nia).
  pose proof (Nat.div_mod (p_t0 p) f F) as E. rewrite Q in E. set (k := (p_t0 p / f)%nat) in *.
  unfold in_bin, series. rewrite filter_map, map_map. cbn [fst snd]. f_equal. fold d.
  apply filter_seq_range; [lia|]. intros i Hi. rewrite Nat.eqb_eq.
  replace (p_t0 p + i * d)%nat with ((q + i) * d + k * f)%nat by lia. rewrite Nat.div_add by exact F.
  unfold f. rewrite (Nat.mul_comm m d), (Nat.mul_comm (q + i) d), Nat.div_mul_cancel_l by lia.
  split; intros X.
  - assert (Y : ((q + i) / m = j)%nat) by lia.
    pose proof (Nat.div_mod (q + i) m ltac:(lia)) as Z. pose proof (Nat.mod_upper_bound (q + i) m ltac:(lia)). rewrite Y in Z.
    rewrite (Nat.mul_comm m j) in Z. lia.
  - assert (Y : ((q + i) / m = j)%nat); [|lia]. symmetry. apply (Nat.div_unique _ m j (q + i - j * m)); [lia|]. rewrite (Nat.mul_comm m j). lia.
Qed.

(** Entry [j] is the mean of the [m] values from number [j m - q] on, [q] being the number of values by which the
    profile starts after an edge of the bins, which are counted from midnight. *)
Theorem C153_entry p c m q j : (0 < p_d p)%nat -> (0 < m)%nat -> (p_t0 p mod (m * p_d p) = q * p_d p)%nat ->
  (q <= j * m)%nat -> ((j + 1) * m - q <= p_n p)%nat ->
  nth_error (by_means (m * p_d p) (series p c)) j = Some (Some (lmean (map (p_val p c) (seq (j * m - q) m)))).
Proof.
  intros D M Q J L. rewrite means_nth; [| |lia|].
  - do 2 f_equal. rewrite in_bin_profile with (q := q); auto.
  - nia.
  - assert (NN : (0 < p_n p)%nat) by (destruct (Nat.eq_dec (p_n p) 0) as [Z|]; [|lia]; rewrite Z in L; nia).
    rewrite bins_length, t_first_series, t_last_series by exact NN.
    set (f := (m * p_d p)%nat) in *. assert (F : f <> 0%nat) by (unfold f; nia).
    pose proof (Nat.div_mod (p_t0 p) f F) as E. rewrite Q in E. set (k := (p_t0 p / f)%nat) in *.
    apply Nat.lt_succ_r. enough (j + k <= (p_t0 p + (p_n p - 1) * p_d p) / f)%nat by lia.
    apply Nat.div_le_lower_bound; [exact F|]. rewrite E, (Nat.mul_comm f (j + k)), Nat.mul_add_distr_r.
    assert (j * m <= q + (p_n p - 1))%nat by nia. unfold f. nia.
Qed.
Print Assumptions C153_entry.

(** The demand of an optimisation period of the run. *)
Definition demand (p : frame) (c : column) (m j : nat) : R := lmean (map (p_val p c) (seq (j * m) m)).

(** For a profile starting on such an edge, entry [j] is the demand from [j f] to [(j + 1) f] after the start. *)
Theorem C153_aligned p c m j : (0 < p_d p)%nat -> (0 < m)%nat -> (p_t0 p mod (m * p_d p) = 0)%nat ->
  ((j + 1) * m <= p_n p)%nat ->
  nth_error (by_means (m * p_d p) (series p c)) j = Some (Some (demand p c m j)).
Proof.
  intros D M Q L. rewrite (C153_entry p c m 0 j D M) by lia. rewrite Nat.sub_0_r. reflexivity.
Qed.
Print Assumptions C153_aligned.

Lemma lsum_ramp a s : forall m k, lsum (map (fun i => a + s * INR i) (seq k m)) =
  INR m * a + s * (INR m * INR k + INR m * (INR m - 1) / 2).
Proof.
  induction m as [|m IH]; intros k; [unfold lsum; cbn; lra|].
  cbn [seq map]. change (a + s * INR k + lsum (map (fun i => a + s * INR i) (seq (S k) m)) = INR (S m) * a + s * (INR (S m) * INR k + INR (S m) * (INR (S m) - 1) / 2)).
  rewrite IH, !S_INR. field.
Qed.
(** Otherwise every later entry is taken from a window that lies [q] values too early. *)
Theorem C153_early_refuted p c m q j a s : (0 < p_d p)%nat -> (0 < q < m)%nat -> (p_t0 p mod (m * p_d p) = q * p_d p)%nat ->
  (1 <= j)%nat -> ((j + 1) * m <= p_n p)%nat -> (forall i, p_val p c i = a + s * INR i) ->
  nth_error (by_means (m * p_d p) (series p c)) j = Some (Some (demand p c m j - s * INR q)).
Proof.
  intros D Q E J L V. rewrite (C153_entry p c m q j D) by (try lia; nia). do 2 f_equal. unfold demand, lmean.
  rewrite !map_length, !seq_length. rewrite !(map_ext _ _ V), !lsum_ramp.
  rewrite minus_INR by nia. field. apply not_0_INR. lia.
Qed.
Print Assumptions C153_early_refuted.

(** A profile with a period of 9 s starting 54 s after midnight, optimisation every 36 s. *)
Definition ex_p : frame := mkFrame 54 9 40 (fun c i => 1000 + 2 * INR i).
Example C152_ex : exists l, process_opt None (4 * 9) (INR 320) ex_p = Taken l /\ l PelUser = by_means (4 * 9) (series ex_p PelUser).
Proof.
  unfold process_opt, unit_check. change (p_d ex_p) with 9%nat.
  replace (4 * 9 <? 9)%nat with false by reflexivity.
  assert (A : all_below 1000 (map snd (series ex_p PelUser)) = false).
  { unfold series, ex_p. cbn [p_n p_t0 p_d p_val]. change 40%nat with (S 39). cbn [seq map snd all_below forallb].
    destruct (Rlt_dec (1000 + 2 * INR 0) 1000) as [X|X]; [cbn [INR] in X; lra|reflexivity]. }
  rewrite A. rewrite bins_length, t_first_series, t_last_series by (cbn; lia). unfold ex_p. cbn [p_n p_t0 p_d].
  destruct (Rle_dec _ _) as [X|X]; [eexists; split; reflexivity|]. exfalso. apply X. apply le_INR. apply Nat.leb_le. vm_compute. reflexivity.
Qed.
Example C153_ex : nth_error (by_means (4 * 9) (series ex_p HeatDmd)) 5 = Some (Some (demand ex_p HeatDmd 4 5 - 2 * INR 2)).
Proof. apply (C153_early_refuted ex_p HeatDmd 4 2 5 1000 2); try (cbn; lia); try reflexivity. Qed.
