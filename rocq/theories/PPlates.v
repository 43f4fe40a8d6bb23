(** C162: plate heat exchangers get a number of plates that fits. *)
From Coq Require Import Reals ZArith Bool Lia Lra Arith.
From Verif Require Import MBC LBC MPlates.
Open Scope Z_scope.

(** Both sides can be flowed through and heat can be transferred. *)
Definition usable (passes plates : Z) : Prop :=
  exists s d, sides passes plates true = Some (s, d) /\ 1 <= s /\ 1 <= d /\ 1 <= areas passes plates.

Lemma raise_spec passes : 1 <= passes -> forall fuel n r, 0 <= r < 2 * passes -> (n - 1 + r) mod (2 * passes) = 0 ->
  (Z.to_nat r < fuel)%nat ->
  raise fuel passes n = n + r /\ forall k, n <= k < n + r -> (k - 1) mod (2 * passes) <> 0.
Proof.
  intros Hp. induction fuel as [|f IH]; intros n r Hr M F; [lia|]. cbn [raise].
  destruct (Z.eqb_spec ((n - 1) mod (2 * passes)) 0) as [E|E].
  - assert (r = 0).
    { apply Z.mod_divide in E; [|lia]. apply Z.mod_divide in M; [|lia]. destruct E as [a Ea]. destruct M as [b Eb].
      assert (D : r = (b - a) * (2 * passes)) by lia.
      assert (b - a <= -1 \/ b - a = 0 \/ 1 <= b - a) as [Q|[Q|Q]] by lia; [nia|rewrite D, Q; reflexivity|nia]. }
    subst r. split; [lia|]. intros k Hk. lia.
  - assert (r <> 0) by (intros ->; apply E; now rewrite Z.add_0_r in M).
    destruct (IH (n + 1) (r - 1)) as [A B]; [lia|replace (n + 1 - 1 + (r - 1)) with (n - 1 + r) by lia; exact M|lia|].
    split; [rewrite A; lia|]. intros k Hk. destruct (Z.eq_dec k n) as [->|]; [exact E|]. apply B. lia.
Qed.
Lemma rest_exists p n : 1 <= p -> exists r, 0 <= r < 2 * p /\ (n - 1 + r) mod (2 * p) = 0.
Proof.
  intro Hp. exists ((1 - n) mod (2 * p)). split; [apply Z.mod_pos_bound; lia|].
  rewrite Z.add_mod_idemp_r by lia. replace (n - 1 + (1 - n)) with 0 by lia. now apply Z.mod_0_l; lia.
Qed.
Lemma even_next k : Z.even (k + 1) = negb (Z.even k).
Proof. rewrite Z.even_add. now destruct (Z.even k). Qed.

(** The smallest number of plates that is accepted and not below the wanted one is chosen, for any number of passes. *)
Theorem C162_accepted : forall passes n s, 1 <= passes ->
  sides passes (adjust passes n) s <> None /\ n <= adjust passes n < n + 2 * passes /\
  forall k, n <= k < adjust passes n -> sides passes k s = None.
Proof.
  intros passes n s Hp. unfold sides. destruct (Z.ltb_spec passes 1); [lia|].
  assert (K : admissible passes (adjust passes n) = true /\ n <= adjust passes n < n + 2 * passes /\
              forall k, n <= k < adjust passes n -> admissible passes k = false).
  { unfold adjust, admissible. destruct (Z.gtb_spec passes 1) as [G|G]; destruct (Z.eqb_spec passes 1) as [E|E]; try lia.
    - destruct (rest_exists passes n Hp) as (r & Hr & M).
      destruct (raise_spec passes Hp (Z.to_nat (2 * passes)) n r Hr M ltac:(lia)) as [A B]. rewrite A.
      split; [apply Z.eqb_eq; rewrite <- M; f_equal; lia|]. split; [lia|].
      intros k Hk. apply Z.eqb_neq. now apply B.
    - destruct (Z.even n) eqn:V; [split; [exact V|split; [lia|intros k Hk; lia]]|].
      split; [rewrite even_next, V; reflexivity|]. split; [lia|]. intros k Hk. assert (k = n) by lia. now subst k. }
  destruct K as (A & B & D). rewrite A. cbn [negb]. split; [destruct (passes =? 1); discriminate|].
  split; [exact B|]. intros k Hk. now rewrite (D k Hk).
Qed.
Print Assumptions C162_accepted.

Lemma adjust_mono p a b : 1 <= p -> a <= b -> adjust p a <= adjust p b.
Proof.
  intros Hp L. destruct (C162_accepted p a true Hp) as (_ & A2 & A3). destruct (C162_accepted p b true Hp) as (B1 & B2 & _).
  destruct (Z_le_gt_dec (adjust p a) (adjust p b)) as [G|G]; [exact G|].
  exfalso. apply B1, A3. lia.
Qed.
Lemma round_mono x y : (0 <= x)%R -> (x <= y)%R -> (pyround x <= pyround y)%nat.
Proof.
  intros P L. destruct (fl_spec x P) as [A B]. destruct (fl_spec y ltac:(lra)) as [C D].
  assert (F : (fl x <= fl y)%nat). { apply Nat.lt_succ_r, INR_lt. rewrite S_INR. lra. }
  destruct (Nat.eq_dec (fl x) (fl y)) as [E|E].
  - unfold pyround. rewrite <- E in *. repeat destruct (Rlt_dec _ _); try lra; destruct (Nat.even (fl x)); lia.
  - pose proof (round_ge y). unfold pyround at 1. repeat destruct (Rlt_dec _ _); destruct (Nat.even (fl x)); lia.
Qed.

(** Larger buildings and flows never get smaller heat exchangers; the number of plates is close to the wanted one. *)
Theorem C162_monotone : forall x y, (0 <= x <= y)%R ->
  hot_water_plates x <= hot_water_plates y /\ circulation_plates x <= circulation_plates y /\
  store_plates x <= store_plates y.
Proof.
  intros x y H. unfold hot_water_plates, circulation_plates, store_plates, hot_water_wish, circulation_wish, store_wish.
  repeat split; (apply adjust_mono; [lia|apply inj_le, round_mono; lra]).
Qed.
Print Assumptions C162_monotone.
Theorem C162_near : forall x, (0 <= x)%R ->
  (hot_water_wish x - 1 / 2 <= IZR (hot_water_plates x) <= hot_water_wish x + 7 / 2)%R /\
  (circulation_wish x - 1 / 2 <= IZR (circulation_plates x) <= circulation_wish x + 3 / 2)%R /\
  (store_wish x - 1 / 2 <= IZR (store_plates x) <= store_wish x + 3 / 2)%R.
Proof.
  intros x Hx.
  assert (G : forall p w, 1 <= p -> (0 <= w)%R ->
    (w - 1 / 2 <= IZR (adjust p (Z.of_nat (pyround w))) <= w + 1 / 2 + IZR (2 * p - 1))%R).
  { intros p w Hp Hw. destruct (round_near w Hw) as [A B]. destruct (C162_accepted p (Z.of_nat (pyround w)) true Hp) as (_ & C & _).
    rewrite INR_IZR_INZ in A, B. destruct C as [C D]. apply IZR_le in C.
    assert (D' : adjust p (Z.of_nat (pyround w)) <= Z.of_nat (pyround w) + (2 * p - 1)) by lia.
    apply IZR_le in D'. rewrite plus_IZR in D'. lra. }
  unfold hot_water_plates, circulation_plates, store_plates.
  assert (0 <= hot_water_wish x /\ 0 <= circulation_wish x /\ 0 <= store_wish x)%R as (W1 & W2 & W3)
    by (unfold hot_water_wish, circulation_wish, store_wish; lra).
  pose proof (G 2 _ ltac:(lia) W1) as G1. pose proof (G 1 _ ltac:(lia) W2) as G2. pose proof (G 1 _ ltac:(lia) W3) as G3.
  change (2 * 2 - 1) with 3 in G1. change (2 * 1 - 1) with 1 in G2, G3. lra.
Qed.
Print Assumptions C162_near.

(** Which numbers of plates are usable. *)
Theorem C162_usable_one : forall n, usable 1 n <-> Z.even n = true /\ 4 <= n.
Proof.
  intro n. unfold usable, sides, admissible, areas. cbn [Z.ltb Z.eqb Z.compare Pos.compare Pos.compare_cont Pos.eqb].
  destruct (Z.even n) eqn:V; cbn [negb].
  - apply Z.even_spec in V. destruct V as [m ->].
    assert (Q : 2 * m ÷ 2 = m) by (rewrite Z.mul_comm; apply Z.quot_mul; lia). rewrite Q, Z.quot_1_r. split.
    + intros (s & d & E & A & B & _). injection E as <- <-. split; [reflexivity|lia].
    + intros [_ A]. exists m, (m - 1). repeat split; lia.
  - split; [intros (s & d & E & _); discriminate|intros [E _]; discriminate].
Qed.
Print Assumptions C162_usable_one.
Theorem C162_usable_more : forall p n, 2 <= p -> (usable p n <-> (n - 1) mod (2 * p) = 0 /\ 2 * p + 1 <= n).
Proof.
  intros p n Hp. unfold usable, sides, admissible, areas. destruct (Z.ltb_spec p 1); [lia|]. destruct (Z.eqb_spec p 1); [lia|].
  destruct (Z.eqb_spec ((n - 1) mod (2 * p)) 0) as [E|E]; cbn [negb].
  - apply Z.mod_divide in E; [|lia]. destruct E as [m E].
    assert (Q : (n - 1) ÷ (p * 2) = m) by (rewrite E; replace (p * 2) with (2 * p) by lia; apply Z.quot_mul; lia).
    rewrite Q. split.
    + intros (s & d & F & A & _). injection F as <- <-. split; [rewrite E; apply Z.mod_mul; lia|nia].
    + intros [_ A]. exists m, m. assert (1 <= m) by nia. repeat split; try lia.
      apply Z.quot_le_lower_bound; nia.
  - split; [intros (s & d & F & _); discriminate|intros [F _]; contradiction].
Qed.
Print Assumptions C162_usable_more.

Lemma round_ge_iff x k : (0 <= x)%R ->
  ((S k <= pyround x)%nat <-> if Nat.even k then (INR k + 1 / 2 < x)%R else (INR k + 1 / 2 <= x)%R).
Proof.
  intros P. destruct (fl_spec x P) as [A B].
  destruct (le_lt_dec (S k) (fl x)) as [L|L].
  - pose proof (round_ge x). assert ((INR k + 1 <= x)%R). { apply le_INR in L. rewrite S_INR in L. lra. }
    destruct (Nat.even k); split; intros; try lia; lra.
  - destruct (Nat.eq_dec (fl x) k) as [E|E].
    + unfold pyround. rewrite E in *. destruct (Rlt_dec _ _); [split; intro; [lia|destruct (Nat.even k); lra]|].
      destruct (Rlt_dec _ _); [split; intro; [destruct (Nat.even k); lra|lia]|].
      destruct (Nat.even k) eqn:V; split; intro; try lia; lra.
    + assert (H : (x < INR k)%R). { assert (S (fl x) <= k)%nat by lia. apply le_INR in H. rewrite S_INR in H. lra. }
      assert (G : (pyround x <= k)%nat).
      { unfold pyround. repeat destruct (Rlt_dec _ _); destruct (Nat.even (fl x)); lia. }
      split; intro; [lia|destruct (Nat.even k); lra].
Qed.
Lemma adjust_one n : 0 <= n -> (4 <= adjust 1 n <-> 3 <= n).
Proof.
  intro P. unfold adjust. cbn [Z.gtb Z.compare Pos.compare Pos.compare_cont]. destruct (Z.even n) eqn:V.
  - apply Z.even_spec in V. destruct V as [m ->]. lia.
  - lia.
Qed.
Lemma adjust_two n : 0 <= n -> (5 <= adjust 2 n <-> 2 <= n).
Proof.
  intro P. destruct (C162_accepted 2 n true ltac:(lia)) as (A & B & C).
  destruct (sides 2 (adjust 2 n) true) as [[s d]|] eqn:E; [|contradiction]. unfold sides, admissible in E.
  change (2 <? 1) with false in E. change (2 =? 1) with false in E. change (2 * 2) with 4 in E. cbv iota in E.
  destruct (Z.eqb_spec ((adjust 2 n - 1) mod 4) 0) as [M|M]; [|discriminate].
  apply Z.mod_divide in M; [|lia]. destruct M as [m M]. split; intro H; [|lia].
  destruct (Z_le_gt_dec 2 n) as [G|G]; [exact G|]. exfalso.
  assert (Q : sides 2 1 true = None) by (apply C; lia). vm_compute in Q. discriminate Q.
Qed.

(** From which size on the assemblies get usable heat exchangers. *)
Theorem C162_sizes : forall x, (0 <= x)%R ->
  (usable 2 (hot_water_plates x) <-> (3 / 2 <= hot_water_wish x)%R) /\
  (usable 1 (circulation_plates x) <-> (5 / 2 < circulation_wish x)%R) /\
  (usable 1 (store_plates x) <-> (5 / 2 < store_wish x)%R).
Proof.
  intros x Hx.
  assert (0 <= hot_water_wish x /\ 0 <= circulation_wish x /\ 0 <= store_wish x)%R as (W1 & W2 & W3)
    by (unfold hot_water_wish, circulation_wish, store_wish; lra).
  assert (G : forall w, (0 <= w)%R -> (usable 1 (adjust 1 (Z.of_nat (pyround w))) <-> (5 / 2 < w)%R)).
  { intros w Hw. rewrite C162_usable_one. pose proof (round_ge_iff w 2 Hw) as R2. cbn [Nat.even INR] in R2.
    pose proof (adjust_one (Z.of_nat (pyround w)) ltac:(lia)) as A1.
    split.
    - intros [_ H]. apply A1 in H. assert (3 <= pyround w)%nat by lia. apply R2 in H0. lra.
    - intro H. assert (3 <= pyround w)%nat by (apply R2; lra). split; [|apply A1; lia].
      unfold adjust. cbn [Z.gtb Z.compare Pos.compare Pos.compare_cont].
      destruct (Z.even (Z.of_nat (pyround w))) eqn:V; [exact V|now rewrite even_next, V]. }
  split; [|split; apply G; assumption].
  unfold hot_water_plates. set (n := Z.of_nat (pyround (hot_water_wish x))).
  rewrite C162_usable_more by lia. pose proof (round_ge_iff (hot_water_wish x) 1 W1) as R1. cbn [Nat.even INR] in R1.
  pose proof (adjust_two n ltac:(unfold n; lia)) as A2.
  destruct (C162_accepted 2 n true ltac:(lia)) as (A & _ & _). unfold sides, admissible in A.
  change (2 <? 1) with false in A. change (2 =? 1) with false in A. change (2 * 2) with 4 in A. cbv iota in A.
  destruct (Z.eqb_spec ((adjust 2 n - 1) mod 4) 0) as [M|M]; [|contradiction].
  split.
  - intros [_ H]. apply A2 in H. assert (2 <= pyround (hot_water_wish x))%nat by (unfold n in H; lia). apply R1 in H0. lra.
  - intro H. split; [exact M|]. apply A2. assert (2 <= pyround (hot_water_wish x))%nat by (apply R1; lra). unfold n. lia.
Qed.
Print Assumptions C162_sizes.

(** The sizes of the plants the numbers were taken from: 61 plates for 1607 square metres (two passes), 8 plates for
    the circulation of about 0.1156 kg/s, 10 plates for loading a storage of such a building. *)
Theorem C162_reference :
  hot_water_plates 1607 = 61 /\ circulation_plates (11555245060523046 / 100000000000000000) = 8 /\ store_plates 1607 = 10.
Proof.
  assert (F : forall w n, (INR n - 1 / 2 < w < INR n + 1 / 2)%R -> (0 <= w)%R -> pyround w = n).
  { intros w n H W. destruct (round_near w W) as [A B].
    assert (U : (INR (pyround w) < INR (S n))%R) by (rewrite S_INR; lra).
    assert (V : (INR n < INR (S (pyround w)))%R) by (rewrite S_INR; lra).
    apply INR_lt in U. apply INR_lt in V. lia. }
  unfold hot_water_plates, circulation_plates, store_plates, hot_water_wish, circulation_wish, store_wish.
  rewrite (F _ 61%nat), (F _ 8%nat), (F _ 9%nat); [now vm_compute|..]; rewrite ?INR_IZR_INZ; cbn [Z.of_nat Pos.of_succ_nat Pos.succ]; lra.
Qed.
Print Assumptions C162_reference.

(** The demand that there are more than four plates is not checked: exchangers without channels on one side, without
    any heat transferring area or with a negative number of plates are accepted ... *)
Theorem C162_unchecked_refuted :
  sides 1 2 true = Some (1, 0) /\ areas 1 2 = 0 /\ sides 1 0 true = Some (0, -1) /\ areas 1 0 = -2 /\
  sides 2 1 true = Some (0, 0) /\ sides 1 (-6) true = Some (-3, -4).
Proof. now vm_compute. Qed.
Print Assumptions C162_unchecked_refuted.
(** ... and the storage loading assembly builds such ones for every building of up to 461 square metres, the
    circulation for mean flows up to 0.036 kg/s. *)
Theorem C162_small_refuted : forall x,
  ((0 <= x <= 461)%R -> ~ usable 1 (store_plates x)) /\
  ((0 <= x <= 36 / 1000)%R -> ~ usable 1 (circulation_plates x)).
Proof.
  intro x. split; intros H U.
  - apply (C162_sizes x) in U; [|lra]. unfold store_wish in U. lra.
  - apply (C162_sizes x) in U; [|lra]. unfold circulation_wish in U. lra.
Qed.
Print Assumptions C162_small_refuted.

(** Heat transferring areas: with one pass all inner plates count; with more passes not all of them do. *)
Theorem C162_areas : forall p n, 1 <= p -> usable p n ->
  p * areas p n <= transferring n < p * areas p n + p /\ (p * areas p n = transferring n <-> p = 1).
Proof.
  intros p n Hp U.
  assert (B : p * areas p n <= transferring n < p * areas p n + p).
  { assert (2 <= n).
    { destruct (Z.eq_dec p 1) as [->|N]; [apply C162_usable_one in U; lia|].
      apply C162_usable_more in U; [|lia]. nia. }
    unfold areas, transferring. rewrite Z.quot_div_nonneg by lia.
    pose proof (Z.div_mod (n - 2) p ltac:(lia)). pose proof (Z.mod_pos_bound (n - 2) p ltac:(lia)). lia. }
  split; [exact B|]. split.
  - intro E. destruct (Z.eq_dec p 1) as [->|N]; [reflexivity|]. exfalso.
    apply C162_usable_more in U; [|lia]. destruct U as [M _]. apply Z.mod_divide in M; [|lia]. destruct M as [m M].
    unfold transferring in E. assert (p * (areas p n - 2 * m) = -1) by lia. 
    assert (areas p n - 2 * m = 0 \/ areas p n - 2 * m <= -1 \/ 1 <= areas p n - 2 * m) as [Q|[Q|Q]] by lia; nia.
  - intros ->. unfold areas. rewrite Z.quot_1_r. unfold transferring. lia.
Qed.
Print Assumptions C162_areas.

(** Example: the building the correlation was taken from. *)
Example C162_example : hot_water_plates 1607 = 61 /\ sides 2 61 true = Some (15, 15) /\ areas 2 61 = 29 /\
  store_plates 1607 = 10 /\ sides 1 10 true = Some (5, 4).
Proof.
  assert (E : forall x n, (INR n - 1 / 2 < x < INR n + 1 / 2)%R -> (0 <= x)%R -> pyround x = n).
  { intros x n H P. destruct (round_near x P) as [A B]. destruct (lt_eq_lt_dec (pyround x) n) as [[L|L]|L]; [|exact L|].
    - apply le_INR in L. rewrite S_INR in L. lra.
    - apply le_INR in L. rewrite S_INR in L. lra. }
  unfold hot_water_plates, store_plates, hot_water_wish, store_wish.
  rewrite (E _ 61%nat) by (rewrite ?INR_IZR_INZ; cbn; lra). rewrite (E _ 9%nat) by (rewrite ?INR_IZR_INZ; cbn; lra).
  now vm_compute.
Qed.
