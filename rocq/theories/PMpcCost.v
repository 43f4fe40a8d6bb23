(** C43, C44, C72, C73, C74: tariff, power balance and cost of the CHP optimiser. *)
From Coq Require Import Reals List Lra Lia.
From Verif Require Import MMpcCost LMpcCost.
Import ListNotations.
Open Scope R_scope.

(** ** C43: bonus bands *)

(** The power in a band is the length of the part of [0, p] that lies in the band, and the band
    powers add up to the power. *)
Theorem C43_partition p : 0 <= p ->
  rsum (pel_per_step p) = p /\
  pel_per_step p =
    map (fun ab => Rmax 0 (Rmin p (snd ab) - fst ab)) [(0, 50); (50, 100); (100, 250); (250, 2000)]
    ++ [Rmax 0 (p - 2000)].
Proof.
  intro P. split.
  - rewrite bands_total. apply Rmax_right. exact P.
  - rewrite pel_bands. cbn [map app fst snd]. rewrite Rminus_0_r. reflexivity.
Qed.

(** The mean bonus is within the band rates and does not grow with the power. *)
Theorem C43_mean : forall p, 0 <= p ->
  31 / 10 * p <= kwk_sum kwkg_es p <= 8 * p /\
  1 * p <= kwk_sum kwkg_en p <= 4 * p /\
  forall q, 0 < p -> p <= q ->
    kwk_sum kwkg_es q / q <= kwk_sum kwkg_es p / p /\
    kwk_sum kwkg_en q / q <= kwk_sum kwkg_en p / p.
Proof.
  intros p P.
  pose proof (es_slopes 0 p (Rle_refl 0) P) as A. pose proof (en_slopes 0 p (Rle_refl 0) P) as B.
  rewrite (es_zero 0) in A by lra. rewrite (en_zero 0) in B by lra.
  split; [lra|split; [lra|]].
  assert (D : forall a b q, 0 < p -> p <= q -> b * p <= a * q -> b / q <= a / p).
  { intros a b q P0 Q H.
    apply Rmult_le_reg_r with (r := q * p); [apply Rmult_lt_0_compat; lra|].
    replace (b / q * (q * p)) with (b * p) by (field; lra).
    replace (a / p * (q * p)) with (a * q) by (field; lra). exact H. }
  intros q P0 Q. split; apply D; auto using es_mean, en_mean.
Qed.

(** The total bonus does not fall when the power grows, for any real power; one more kW brings
    at least the lowest and at most the highest rate. *)
Theorem C43_monotone : forall p q, p <= q ->
  kwk_sum kwkg_es p <= kwk_sum kwkg_es q /\ kwk_sum kwkg_en p <= kwk_sum kwkg_en q /\
  (0 <= p -> 31 / 10 * (q - p) <= kwk_sum kwkg_es q - kwk_sum kwkg_es p <= 8 * (q - p) /\
             q - p <= kwk_sum kwkg_en q - kwk_sum kwkg_en p <= 4 * (q - p)) /\
  kwk_sum kwkg_en p <= kwk_sum kwkg_es p.
Proof.
  intros p q Q. split; [apply es_mono, Q|split; [apply en_mono, Q|split]].
  - intro P. split; [apply es_slopes|apply en_slopes]; assumption.
  - rewrite es_eq, en_eq. unfold kwk_val. repeat (destruct (Rle_dec _ _)); lra.
Qed.

(** The call on an array treats the entries independently. *)
Theorem C43_array : forall l i p, nth_error l i = Some p ->
  exists es en, kwk_zuschlag (Array l) = Ok (es, en) /\
    nth_error es i = Some (kwk_sum kwkg_es p) /\ nth_error en i = Some (kwk_sum kwkg_en p).
Proof.
  intros l i p E. do 2 eexists. split; [reflexivity|].
  split; now apply map_nth_error.
Qed.

(** Scalars are announced ("call singular value implementation") but always rejected. *)
Theorem C43_scalar_refuted : forall p, kwk_zuschlag (Scalar p) = Raise.
Proof. reflexivity. Qed.

(** 120 kW: 50 kW, 50 kW and 20 kW in the first three bands. *)
Example C43_case :
  pel_per_step 120 = [50; 50; 20; 0; 0] /\ kwk_sum kwkg_es 120 = 800 /\ kwk_sum kwkg_en 120 = 390.
Proof.
  split; [|split].
  - rewrite pel_bands. unfold Rmax, Rmin.
    repeat (destruct (Rle_dec _ _); try lra). repeat (f_equal; try lra).
  - rewrite es_eq. unfold kwk_val. repeat (destruct (Rle_dec _ _)); lra.
  - rewrite en_eq. unfold kwk_val. repeat (destruct (Rle_dec _ _)); lra.
Qed.

(** ** C44: power balance *)

(** Demand is self-consumed or purchased, production is self-consumed or fed in, everything is
    non-negative, purchase and feed-in exclude each other, the base load is served first. *)
Theorem C44_balance : forall q x base user,
  0 <= x -> 0 <= p_pel q -> 0 <= base -> 0 <= user ->
  let s := split_of q x base user in
  base + user = s_own s + s_buy s /\
  x * p_pel q = s_own s + s_feed s /\
  0 <= s_own s /\ 0 <= s_buy s /\ 0 <= s_feed s /\
  (s_feed s = 0 \/ s_buy s = 0) /\
  s_own s = Rmin (x * p_pel q) (base + user) /\
  s_own_b s = Rmin (x * p_pel q) base /\
  s_own_b s + s_buy_b s = base /\ s_own_m s + s_buy_m s = user.
Proof.
  intros q x b u X P B U s.
  assert (XP : 0 <= x * p_pel q) by (apply Rmult_le_pos; assumption).
  destruct (split_balance q x b u) as [B1 B2].
  destruct (split_sign q x b u XP B U) as (S1 & S2 & S3 & S4 & S5 & S6).
  pose proof (split_excl q x b u XP B U) as E.
  destruct (split_values q x b u XP B U) as (V1 & V2 & V3 & V4).
  fold s in B1, B2, S1, S2, S3, S4, S5, S6, E, V1, V2, V3, V4.
  change (x * p_pel q) with (s_prod s) at 1.
  assert (N1 : 0 <= s_own s) by (unfold s_own; lra).
  assert (N2 : 0 <= s_buy s) by (unfold s_buy; lra).
  do 8 (split; [assumption|]).
  unfold s, split_of. cbn [s_own_b s_buy_b s_own_m s_buy_m].
  split; repeat (destruct (Rlt_dec _ _)); lra.
Qed.

(** Every slot of the plan is accounted with such a split: the cost is the sum over the slots
    of a function of the split of that slot. *)
Theorem C44_slots : forall q inst xs base user, inst_rate q = Ok inst ->
  minimizer_input q xs base user =
    Ok (map (cut q) xs,
        rsum (map (fun t => - earn_sum (earnings q inst (fst t)
                                          (split_of q (fst t) (fst (snd t)) (snd (snd t)))))
                  (combine (map (cut q) xs) (combine base user)))).
Proof.
  intros q inst xs b u I. unfold minimizer_input. rewrite I. do 3 f_equal.
  apply map_ext. intros [x [b' u']]. reflexivity.
Qed.

Example C44_case : exists q s, s = split_of q (1 / 2) 6000 1000 /\
  s_own s = 7000 /\ s_feed s = 3000 /\ s_buy s = 0 /\ s_own_b s = 6000.
Proof.
  exists (mkPrm 20000 (3/10) (1/2) 1 (1/4) true 4 (1/2) 0 4 25 (8/10) 69 0 (1/4)).
  eexists; split; [reflexivity|].
  unfold split_of, s_own, s_buy. cbn [p_pel s_own_b s_own_m s_feed s_buy_b s_buy_m].
  repeat (destruct (Rlt_dec _ _); try lra).
Qed.

(** ** C72: the two cost functions agree *)

(** A modulation the CHP can run: off or within the range. *)
Definition feasible (q : prm) (x : R) : Prop := x = 0 \/ p_lo q <= x <= p_hi q.

(** Cost of a plan as sum of the short-term costs of its slots. *)
Fixpoint scalar_costs (q : prm) (l : list (R * (R * R))) : res R :=
  match l with
  | [] => Ok 0
  | (x, (b, u)) :: l =>
      match minimizer_scalar q x b u, scalar_costs q l with
      | Ok c, Ok d => Ok (c + d) | _, _ => Raise
      end
  end.

Lemma cut_feasible q x : 0 <= p_lo q -> 0 <= p_hi q -> feasible q x -> cut q x = x.
Proof.
  intros L H F. unfold cut.
  destruct (Rlt_dec x (p_lo q * (6 / 10))) as [A|A];
  destruct (Rlt_dec (p_hi q) _) as [B|B]; destruct F as [F|F]; lra.
Qed.

Lemma scalar_slot q inst x b u : inst_rate q = Ok inst ->
  minimizer_scalar q x b u = Ok (- earn_sum (slot_earn q inst (x, (b, u)))).
Proof.
  unfold inst_rate, minimizer_scalar, slot_earn, earnings, split_of, earn_sum, s_buy, s_own.
  cbn [s_prod s_buy_b s_own_b s_rest s_buy_m s_feed s_own_m e_gas e_esr e_vnn e_inst e_eeg e_buy
       e_resell e_feed_kwk e_feed_eex e_own_kwk e_own_sell].
  destruct (p_flat q).
  - intros _. repeat (destruct (Rlt_dec _ _)); reflexivity.
  - intro I. rewrite I. repeat (destruct (Rlt_dec _ _)); reflexivity.
Qed.

Theorem C72_agree : forall q inst xs base user,
  inst_rate q = Ok inst -> 0 <= p_lo q -> 0 <= p_hi q ->
  length base = length xs -> length user = length xs -> Forall (feasible q) xs ->
  exists cost, minimizer_input q xs base user = Ok (xs, cost) /\
    scalar_costs q (combine xs (combine base user)) = Ok cost.
Proof.
  intros q inst xs base user I L H LB LU F. unfold minimizer_input. rewrite I.
  assert (C : map (cut q) xs = xs).
  { rewrite <- (map_id xs) at 2. apply map_ext_in. intros x X.
    apply cut_feasible; auto. rewrite Forall_forall in F. now apply F. }
  rewrite C. eexists. split; [reflexivity|].
  clear LB LU F C.
  induction (combine xs (combine base user)) as [|[x [b u]] l IH]; [reflexivity|].
  cbn [scalar_costs map]. rewrite (scalar_slot q inst) by assumption. rewrite IH. reflexivity.
Qed.

(** Outside the range the two differ: a modulation above the upper limit of the range is
    accounted (and returned) as full power, not as the upper limit, so the plan with 0.81 of a
    range (0.5, 0.8) costs what full power costs. *)
Theorem C72_above_refuted : forall q xs base user x,
  p_hi q < x -> p_lo q * (6 / 10) <= x -> p_hi q < 1 -> p_lo q <= 1 ->
  minimizer_input q (x :: xs) base user = minimizer_input q (1 :: xs) base user /\
  cut q x = 1.
Proof.
  intros q xs base user x H L H1 L1.
  assert (A : cut q x = 1).
  { unfold cut. destruct (Rlt_dec x (p_lo q * (6 / 10))); [lra|].
    destruct (Rlt_dec (p_hi q) x); lra. }
  assert (B : cut q 1 = 1).
  { unfold cut. destruct (Rlt_dec 1 (p_lo q * (6 / 10))); [lra|].
    destruct (Rlt_dec (p_hi q) 1); lra. }
  split; [|exact A]. unfold minimizer_input. destruct (inst_rate q); [|reflexivity].
  cbn [map]. rewrite A, B. reflexivity.
Qed.

Definition chp20 (hi : R) : prm :=
  mkPrm 20000 (3/10) (1/2) hi (1/4) true 4 (1/2) 0 4 25 (8/10) 69 0 (1/4).

Example C72_case : exists cost,
  minimizer_input (chp20 1) [1/2; 0] [6000; 5000] [1000; 100] = Ok ([1/2; 0], cost).
Proof.
  destruct (C72_agree (chp20 1) 0 [1/2; 0] [6000; 5000] [1000; 100]) as (c & E & _);
    try reflexivity; cbn; try lra.
  - repeat constructor; unfold feasible; cbn; lra.
  - exists c. exact E.
Qed.

Example C72_above_case : cut (chp20 (8/10)) (81/100) = 1.
Proof.
  refine (proj2 (C72_above_refuted (chp20 (8/10)) [] [] [] (81/100) _ _ _ _)); cbn; lra.
Qed.

(** ** C73: price parameters *)

(** Documented selling price: [strompreis_zukauf + aufschlag_verkauf].  It is what the code uses
    exactly if the surcharge is 0.8 ct/kWh. *)
Theorem C73_surcharge_partial : forall q inst x s,
  p_awvk q = 8 / 10 ->
  e_own_sell (earnings q inst x s) = s_own s / 1000 * (p_spz q + p_awvk q) * p_freq q /\
  e_resell (earnings q inst x s) =
    s_buy s / 1000 * (p_spz q + p_awvk q - p_pwvk q) * p_freq q.
Proof. intros q inst x s A. unfold earnings. cbn [e_own_sell e_resell]. rewrite A. split; reflexivity. Qed.

Theorem C73_surcharge_refuted : forall q inst x s,
  p_awvk q <> 8 / 10 -> 0 < s_own s -> 0 < p_freq q ->
  e_own_sell (earnings q inst x s) <> s_own s / 1000 * (p_spz q + p_awvk q) * p_freq q.
Proof.
  intros q inst x s A O F. unfold earnings. cbn [e_own_sell]. intro E.
  assert (Z : (s_own s / 1000 * p_freq q) * (p_awvk q - 8 / 10) = 0) by lra.
  apply Rmult_integral in Z. destruct Z as [Z|Z]; [|lra].
  assert (0 < s_own s / 1000 * p_freq q) by (apply Rmult_lt_0_compat; lra). lra.
Qed.

(** The base load is meant to be charged with the reduced levy for own consumption ("red. EEGU
    fuer Baseload"; documented in kW: 40 % between 10 kW and 100 kW).  The cost function passes
    the power in W, so every plant of at least 100 W is charged the full levy on its whole
    production. *)
Theorem C73_levy_refuted : forall q inst x base user, 100 <= p_pel q ->
  e_eeg (earnings q inst x (split_of q x base user)) =
    - (p_freq q / 1000 * (x * p_pel q) * eeg_2020).
Proof.
  intros q inst x b u P. unfold earnings, split_of, eeg_umlage. cbn [e_eeg s_own_b s_rest].
  destruct (Rle_dec 100 (p_pel q)); [|lra]. destruct (Rlt_dec b (x * p_pel q)); lra.
Qed.

(** For a 20 kW plant that only serves the base load the levy is 2.5 times the intended one. *)
Example C73_levy_case : forall inst,
  let s := split_of (chp20 1) 1 20000 0 in
  e_eeg (earnings (chp20 1) inst 1 s) = - (1 / 4 * 20 * (6756 / 1000)) /\
  - (1 / 4 / 1000 * s_own_b s * eeg_umlage (20000 / 1000) Own) = - (1 / 4 * 20 * (6756 / 1000) * (4 / 10)).
Proof.
  intro inst. split.
  - rewrite C73_levy_refuted by (cbn; lra). cbn [p_freq p_pel chp20]. unfold eeg_2020. lra.
  - unfold split_of, eeg_umlage, eeg_2020. cbn [s_own_b p_pel chp20].
    destruct (Rlt_dec _ _); destruct (Rle_dec _ _); try lra; destruct (Rle_dec _ _); lra.
Qed.

Example C73_surcharge_case :
  let q := mkPrm 20000 (3/10) (1/2) 1 (1/4) true 4 (1/2) 0 4 25 2 69 0 (1/4) in
  e_own_sell (earnings q 0 1 (split_of q 1 20000 0)) = 20 * (258 / 10) / 4.
Proof.
  unfold earnings, split_of, s_own. cbn [e_own_sell s_own_b s_own_m p_pel p_spz p_freq].
  repeat (destruct (Rlt_dec _ _); try lra).
Qed.

(** ** C74: maintenance cost *)

(** Scalars between 1 and 100 kW are accepted and priced, all others rejected. *)
Theorem C74_scalar : forall p,
  (1 <= p <= 100 <-> exists c, instandh_nonflat (Scalar p) = Ok [c] /\ 0 < c) /\
  (~ 1 <= p <= 100 <-> instandh_nonflat (Scalar p) = Raise).
Proof.
  intro p. unfold instandh_nonflat, asue, Rpower.
  pose proof (exp_pos (- (1/4) * ln p)) as E1. pose proof (exp_pos (1866/10000 * ln p)) as E2.
  destruct (Rle_dec 10 p); [destruct (Rle_dec p 100)|destruct (Rle_dec 1 p)].
  - split; split; try lra; intro X.
    + eexists; split; [reflexivity|lra].
    + discriminate.
  - split; split; try lra; intro X; try reflexivity.
    destruct X as (c & X & _); discriminate.
  - split; split; try lra; intro X.
    + eexists; split; [reflexivity|lra].
    + discriminate.
  - split; split; try lra; intro X; try reflexivity.
    destruct X as (c & X & _); discriminate.
Qed.

(** Arrays are documented input and pass the range assertion, yet the call always raises. *)
Theorem C74_array_refuted : forall l, instandh_nonflat (Array l) = Raise.
Proof. reflexivity. Qed.

(** The price per kWh jumps upwards at 10 kW when coming from above: it is higher just below
    10 kW than at 10 kW, while it grows with the power below 10 kW. *)
Theorem C74_grows_below : forall p q, 1 <= p -> p < q -> q < 10 -> exists a b,
  instandh_nonflat (Scalar p) = Ok [a] /\ instandh_nonflat (Scalar q) = Ok [b] /\ a < b.
Proof.
  intros p q P Q T. unfold instandh_nonflat, asue.
  destruct (Rle_dec 10 p); [lra|]. destruct (Rle_dec 1 p); [|lra].
  destruct (Rle_dec 10 q); [lra|]. destruct (Rle_dec 1 q); [|lra].
  do 2 eexists. split; [reflexivity|split; [reflexivity|]].
  apply Rmult_lt_compat_l; [lra|]. unfold Rpower. apply exp_increasing.
  apply Rmult_lt_compat_l; [lra|]. apply ln_increasing; lra.
Qed.

Example C74_case : exists a, instandh_nonflat (Scalar 1) = Ok [a] /\ a = 32619 / 10000.
Proof.
  unfold instandh_nonflat, asue. destruct (Rle_dec 10 1); [lra|]. destruct (Rle_dec 1 1); [|lra].
  eexists; split; [reflexivity|]. unfold Rpower. rewrite ln_1, Rmult_0_r, exp_0. lra.
Qed.

Print Assumptions C43_partition.
Print Assumptions C43_mean.
Print Assumptions C43_monotone.
Print Assumptions C43_array.
Print Assumptions C43_scalar_refuted.
Print Assumptions C44_balance.
Print Assumptions C44_slots.
Print Assumptions C72_agree.
Print Assumptions C72_above_refuted.
Print Assumptions C73_surcharge_partial.
Print Assumptions C73_surcharge_refuted.
Print Assumptions C73_levy_refuted.
Print Assumptions C74_scalar.
Print Assumptions C74_array_refuted.
Print Assumptions C74_grows_below.

(** The levy itself is as documented: none up to 10 kW of own consumption, 40 % below 100 kW, the
    full levy above and for energy sold to others; it never falls with the power of the plant. *)
Theorem C73_levy_monotone : forall p1 p2 v, p1 <= p2 -> 0 <= eeg_umlage p1 v <= eeg_umlage p2 v /\
  eeg_umlage p1 v <= eeg_umlage p1 Third.
Proof.
  intros p1 p2 v L. unfold eeg_umlage, eeg_2020. destruct v; [lra|].
  destruct (Rle_dec 100 p1), (Rle_dec 100 p2), (Rle_dec p1 10), (Rle_dec p2 10); lra.
Qed.
Print Assumptions C73_levy_monotone.

(** In the cost function: no maintenance cost while the plant is off, the whole rate at full power, more the more it runs. *)
Theorem C74_share : forall q inst s, p_flat q = false -> 0 < p_ppi q -> 0 < p_pel q -> 0 < inst -> 0 < p_freq q ->
  e_inst (earnings q inst 0 s) = 0 /\ e_inst (earnings q inst 1 s) = - (p_pel q / 1000 * inst * p_freq q) /\
  forall x y, 0 <= x -> x < y -> e_inst (earnings q inst y s) < e_inst (earnings q inst x s).
Proof.
  intros q inst s F P E I Q. unfold earnings. cbn [e_inst]. rewrite F. unfold pw.
  destruct (Req_EM_T 0 0) as [_|C]; [|now contradiction C]. destruct (Req_EM_T 1 0) as [C|_]; [exfalso; lra|].
  split; [lra|]. split; [unfold Rpower; rewrite ln_1, Rmult_0_r, exp_0; lra|]. intros x y X Y. destruct (Req_EM_T y 0) as [C|_]; [exfalso; lra|].
  assert (K : forall a b, a < b -> - b * p_pel q / 1000 * inst * p_freq q < - a * p_pel q / 1000 * inst * p_freq q).
  { intros a b L. assert (0 < p_pel q * inst * p_freq q) by (repeat apply Rmult_lt_0_compat; assumption).
    replace (- b * p_pel q / 1000 * inst * p_freq q) with (- b / 1000 * (p_pel q * inst * p_freq q)) by field.
    replace (- a * p_pel q / 1000 * inst * p_freq q) with (- a / 1000 * (p_pel q * inst * p_freq q)) by field.
    apply Rmult_lt_compat_r; [assumption|lra]. }
  apply K. destruct (Req_EM_T x 0) as [_|C]; [unfold Rpower; apply exp_pos|].
  unfold Rpower. apply exp_increasing. apply Rmult_lt_compat_l; [exact P|]. apply ln_increasing; lra.
Qed.
Print Assumptions C74_share.
(** A 20 kW plant, 2 ct/kWh, quarter hours: 10 ct for a quarter of an hour at full power. *)
Example C74_share_ex : forall s, let q := mkPrm 20000 (3/10) (1/2) 1 (1/4) false 4 (1/2) 0 4 25 2 69 0 (1/4) in
  e_inst (earnings q 2 1 s) = -10 /\ e_inst (earnings q 2 (1/2) s) < 0.
Proof.
  intros s q. destruct (C74_share q 2 s) as (A & B & C); try (unfold q; cbn; lra); try reflexivity. split.
  - rewrite B. unfold q. cbn. lra.
  - rewrite <- A. apply C; lra.
Qed.
