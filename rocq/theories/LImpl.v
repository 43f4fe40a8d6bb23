(** Implicit steps of the numeric heat exchanger: the extrema of a solution. *)
From Coq Require Import Reals List Bool Arith Lra Lia.
From Verif Require Import MFlow MWater MDiff MMix MHexNum MImpl SFlow LFlow LDiff LDiff4 LWater LHex LMix SMix SHexNum LHexNum LHexNum2 LHexNum3.
Open Scope R_scope.

Lemma ext_in n B y i c : (i < n)%nat -> (c < 3)%nat -> ext_of n B y (S i) (S c) = y i c.
Proof.
  intros Hi Hc. unfold ext_of.
  destruct (Nat.leb_spec 1 (S i)); [|lia]. destruct (Nat.leb_spec (S i) n); [|lia].
  destruct (Nat.leb_spec 1 (S c)); [|lia]. destruct (Nat.leb_spec (S c) 3); [|lia].
  cbn [andb]. f_equal; lia.
Qed.

Lemma div_nonneg a b : 0 <= a -> 0 < b -> 0 <= a / b.
Proof. intros A B. unfold Rdiv. apply Rmult_le_pos; [exact A|left; apply Rinv_0_lt_compat, B]. Qed.
Lemma div_nonpos a b : a <= 0 -> 0 < b -> a / b <= 0.
Proof.
  intros A B. pose proof (div_nonneg (- a) b ltac:(lra) B). unfold Rdiv in *. lra.
Qed.
Lemma mul_nonpos a b : 0 <= a -> b <= 0 -> a * b <= 0.
Proof. intros A B. pose proof (Rmult_le_pos a (- b) A ltac:(lra)). lra. Qed.

Section Max.
Variables (g : hexn) (lamT : nat -> R) (io : arr) (f : hflows) (Tx : grid) (Tp : arr).
Let n := hn_n g.
Hypothesis G : hn_ok g.
Hypothesis W : hn_range g Tx Tp.
Hypothesis F : hflows_at n f.
Hypothesis HL : forall p, (p < 4)%nat -> 0 < lamT (hexn_own n p).
Let q := hexn_flows n io f.
Let r := hexn_body g lamT io q Tx Tp.

Lemma ua1_nonneg i c : (i <= n)%nat -> (c < 3)%nat -> 0 <= hr_ua1 r i c.
Proof.
  intros Hi Hc. unfold r. cbn [hexn_body hr_ua1]. fold n.
  destruct ((1 <=? i)%nat && (i <? n)%nat)%bool eqn:E; [|lra].
  apply andb_true_iff in E. destruct E as [E1 E2]. apply Nat.leb_le in E1. apply Nat.ltb_lt in E2.
  destruct G as (_ & _ & _ & Pa & Pg & _ & _ & _ & _ & _ & _ & _ & Pu & _).
  destruct W as [WT _].
  assert (L : forall s, (s < 2)%nat -> 0 <= lam_mean (fun k => hexn_lam Tx k s) (i - 1)%nat).
  { intros s Hs. unfold lam_mean, hexn_lam.
    pose proof (lambda_bounds _ (WT (i - 1)%nat (2 * s)%nat ltac:(fold n; lia) ltac:(lia))) as L1.
    pose proof (lambda_bounds _ (WT (S (i - 1)) (2 * s)%nat ltac:(fold n; lia) ltac:(lia))) as L2.
    replace (2 * s + 1)%nat with (S (2 * s)) by lia.
    try (apply div_nonneg; [nra|lra]). }
  assert (0 < hn_Ach g / hn_gsp g) by (apply Rdiv_lt_0_compat; assumption).
  destruct c as [|[|[|c]]]; [| | |lia].
  - apply Rmult_le_pos; [lra|apply L; lia].
  - exact Pu.
  - apply Rmult_le_pos; [lra|apply L; lia].
Qed.
Lemma ua2_nonneg i c : (i < n)%nat -> (c <= 3)%nat -> 0 <= hr_ua2 r i c.
Proof.
  intros Hi Hc. unfold r. cbn [hexn_body hr_ua2].
  destruct G as (_ & _ & _ & Pa & _ & Pd & Ps & Pc & PA & _ & Pl & _).
  destruct W as [WT _].
  assert (L : forall s, (s < 2)%nat -> 0 <
    hexn_alpha g (io s / INR (hn_div g s)) (Tx (S i) (2 * s + 1)%nat) (hn_x g i)).
  { intros s Hs. apply hexn_alpha_pos; try assumption.
    replace (2 * s + 1)%nat with (S (2 * s)) by lia. apply WT; [exact Hi|lia]. }
  destruct ((c =? 1) || (c =? 2))%nat eqn:E; [|lra].
  apply div_nonneg; [lra|].
  assert (0 < hn_s g / 2 / hn_lamw g) by (repeat apply Rdiv_lt_0_compat; lra).
  apply orb_true_iff in E. rewrite !Nat.eqb_eq in E. destruct E as [-> | ->]; cbn [Nat.sub].
  - specialize (L 0%nat ltac:(lia)). assert (0 < 1 / hexn_alpha g (io 0%nat / INR (hn_div g 0)) (Tx (S i) (2 * 0 + 1)%nat) (hn_x g i)) by (apply Rdiv_lt_0_compat; lra). lra.
  - specialize (L 1%nat ltac:(lia)). assert (0 < 1 / hexn_alpha g (io 1%nat / INR (hn_div g 1)) (Tx (S i) (2 * 1 + 1)%nat) (hn_x g i)) by (apply Rdiv_lt_0_compat; lra). lra.
Qed.
Lemma huap_nonneg p : (p < 4)%nat -> 0 <= hr_uap r p.
Proof.
  intros Hp. unfold r. cbn [hexn_body hr_uap].
  destruct G as (_ & _ & _ & _ & Pg & _ & _ & _ & _ & _ & _ & _ & _ & _ & PP).
  destruct (PP p Hp) as (P1 & P2 & _ & P4). destruct W as [_ WP].
  pose proof (lambda_bounds _ (WP p Hp)). pose proof (HL p Hp) as K. fold n.
  assert (0 < hn_pgsp g p / (2 * lambda_water (Tp p))) by (apply Rdiv_lt_0_compat; lra).
  assert (0 < hn_gsp g / (2 * lamT (hexn_own n p))) by (apply Rdiv_lt_0_compat; lra).
  pose proof (div_nonneg (hn_pA g p) (hn_pgsp g p / (2 * lambda_water (Tp p)) + hn_gsp g / (2 * lamT (hexn_own n p))) ltac:(lra) ltac:(lra)). lra.
Qed.
Lemma flows_nonneg s : (s < 2)%nat ->
  (forall i, (i < n)%nat -> 0 <= hf_top q s i /\ 0 <= hf_bot q s i) /\
  0 <= hf_port q (2 * s)%nat /\ 0 <= hf_port q (2 * s + 1)%nat.
Proof.
  intros Hs. pose proof G as (Hn & _).
  destruct (flow_col n io f s Hn F Hs) as (A & B & C & D). fold q in A, B, C, D.
  pose proof (Rmax_l 0 (io s)). pose proof (Rmax_l 0 (- io s)).
  rewrite C, D. split; [|lra]. intros i Hi. rewrite A, B by exact Hi.
  destruct (1 <=? i)%nat, (i <? n - 1)%nat; lra.
Qed.
Lemma port_nonneg p : (p < 4)%nat -> 0 <= hf_port q p.
Proof.
  intros Hp. destruct (flows_nonneg 0 ltac:(lia)) as (_ & A & B).
  destruct (flows_nonneg 1 ltac:(lia)) as (_ & C & D). cbn [Nat.mul Nat.add] in *.
  destruct p as [|[|[|[|p]]]]; assumption || lia.
Qed.

(** Values of neighbours: [sg = 1] for an upper, [-1] for a lower bound. *)
Section Sign.
Variables (sg : R) (i c : nat).
Hypothesis Hsg : sg = 1 \/ sg = -1.
Hypothesis Hi : (i < n)%nat.
Hypothesis Hc : (c < 3)%nat.
Hypothesis Ext : forall i' c', (i' < n)%nat -> (c' < 3)%nat ->
  sg * (Tx (S i') (S c') - Tx (S i) (S c)) <= 0.
Hypothesis ExtP : forall p, (p < 4)%nat -> sg * (Tp p - Tx (S i) (S c)) <= 0.

Lemma enth_sign a b : 0 <= a <= 100 -> 0 <= b <= 100 -> sg * (a - b) <= 0 -> sg * (henth a - henth b) <= 0.
Proof.
  intros A B H. unfold henth. destruct Hsg as [E|E]; rewrite E in *.
  - pose proof (u_le a b ltac:(lra) ltac:(lra) ltac:(lra)). lra.
  - pose proof (u_le b a ltac:(lra) ltac:(lra) ltac:(lra)). lra.
Qed.
Lemma coef_sign k x : 0 <= k -> sg * x <= 0 -> sg * (k * x) <= 0.
Proof.
  intros K X. replace (sg * (k * x)) with (k * (sg * x)) by ring. now apply mul_nonpos.
Qed.
Lemma quot_sign k x : 0 < k -> sg * x <= 0 -> sg * (x / k) <= 0.
Proof.
  intros K X. replace (sg * (x / k)) with (sg * x / k) by (unfold Rdiv; ring). now apply div_nonpos.
Qed.
Lemma sum_sign f' m : (forall p, (p < m)%nat -> sg * f' p <= 0) -> sg * rsum m f' <= 0.
Proof.
  intros H. induction m as [|m IH]; [cbn; lra|]. cbn [rsum].
  pose proof (H m ltac:(lia)). specialize (IH ltac:(intros p Hp; apply H; lia)). lra.
Qed.
Lemma capp i' c' : (i' < n)%nat -> (c' < 3)%nat -> 0 < hcap g Tx i' c'.
Proof. intros. now apply (hcap_pos g Tx Tp). Qed.

Lemma row_ok p : (port_row n p < n)%nat.
Proof. pose proof G as (Hn & _). fold n in Hn. destruct p as [|[|[|p]]]; cbn [port_row]; lia. Qed.

Lemma cond_sign : sg * hr_cond r i c <= 0.
Proof.
  pose proof G as (Hn & _). unfold r. rewrite (hcond_val g lamT io q Tx Tp Hn i c Hc). fold n r.
  rewrite Rmult_plus_distr_l.
  assert (A : sg * (cond_inner g lamT io q Tx Tp i c / hcap g Tx i c) <= 0).
  { apply quot_sign; [apply capp; assumption|]. unfold cond_inner. fold r.
    assert (U : sg * (hr_ua1 r i c * (Tx i (S c) - Tx (S i) (S c))) <= 0).
    { destruct i as [|k] eqn:Ei.
      - destruct (ua1_ends g lamT io q Tx Tp c) as [E _]. fold r in E. rewrite E. lra.
      - rewrite <- Ei in *. apply coef_sign; [apply ua1_nonneg; lia|].
        replace (Tx i (S c)) with (Tx (S k) (S c)) by (now rewrite Ei). apply Ext; lia. }
    assert (D : sg * (hr_ua1 r (S i) c * (Tx (S (S i)) (S c) - Tx (S i) (S c))) <= 0).
    { destruct (Nat.eq_dec (S i) n) as [E|E].
      - destruct (ua1_ends g lamT io q Tx Tp c) as [_ E1]. fold n r in E1. rewrite <- E in E1. rewrite E1. lra.
      - apply coef_sign; [apply ua1_nonneg; lia|apply Ext; lia]. }
    assert (L : sg * (hr_ua2 r i c * (Tx (S i) c - Tx (S i) (S c))) <= 0).
    { destruct c as [|k] eqn:Ec.
      - destruct (ua2_ends g lamT io q Tx Tp i) as [E _]. fold r in E. rewrite E. lra.
      - rewrite <- Ec in *. apply coef_sign; [apply ua2_nonneg; lia|].
        replace (Tx (S i) c) with (Tx (S i) (S k)) by (now rewrite Ec). apply Ext; lia. }
    assert (Rr : sg * (hr_ua2 r i (S c) * (Tx (S i) (S (S c)) - Tx (S i) (S c))) <= 0).
    { destruct (Nat.eq_dec c 2) as [E|E].
      - destruct (ua2_ends g lamT io q Tx Tp i) as [_ E1]. fold r in E1. rewrite E, E1. lra.
      - apply coef_sign; [apply ua2_nonneg; lia|apply Ext; lia]. }
    lra. }
  assert (B : sg * rsum 4 (fun p => if here n i c p
        then hr_uap r p * (Tp p - Tx (S (port_row n p)) (S (port_col p)))
             / hcap g Tx (port_row n p) (port_col p) else 0) <= 0).
  { apply sum_sign. intros p Hp. unfold here.
    destruct ((port_row n p =? i)%nat && (port_col p =? c)%nat)%bool eqn:E; [|lra].
    apply andb_true_iff in E. rewrite !Nat.eqb_eq in E. destruct E as [E1 E2].
    apply quot_sign; [apply capp; [apply row_ok|apply port_col_lt]|].
    rewrite E1, E2. apply coef_sign; [now apply huap_nonneg|now apply ExtP]. }
  lra.
Qed.
Lemma adv_sign : sg * hr_adv r i c <= 0.
Proof.
  pose proof G as (Hn & D0 & D1 & _). destruct W as [WT WP].
  destruct (Nat.eq_dec c 1) as [E|E].
  { subst c. unfold r. rewrite (hadv_wall g lamT io q Tx Tp Hn i). lra. }
  assert (exists s, (s < 2)%nat /\ c = (2 * s)%nat) as (s & Hs & Es).
  { destruct c as [|[|[|k]]]; [exists 0%nat|lia|exists 1%nat|lia]; lia. }
  assert (PD : 0 < INR (hn_div g s)) by (apply lt_0_INR; destruct s as [|[|s]]; lia).
  unfold r. rewrite Es, (hadv_val g lamT io q Tx Tp Hn i s Hs). fold n.
  rewrite <- Es. apply quot_sign; [exact PD|]. rewrite Rmult_plus_distr_l.
  destruct (flows_nonneg s Hs) as (FT & _).
  assert (C2 : (c / 2)%nat = s) by (rewrite Es, Nat.mul_comm, Nat.div_mul; lia).
  assert (A : sg * (adv_inner q Tx i c / hcap g Tx i c) <= 0).
  { apply quot_sign; [apply capp; assumption|]. unfold adv_inner.
    destruct (Nat.eqb_spec c 1); [contradiction|]. rewrite C2. destruct (FT i Hi) as [F1 F2].
    rewrite Rmult_plus_distr_l.
    assert (U : sg * (hf_top q s i * (henth (Tx i (S c)) - henth (Tx (S i) (S c)))) <= 0).
    { destruct i as [|k] eqn:Ei.
      - destruct (hflows_ends n q Hn (hf_step n io f F) s) as [E1 _]. rewrite E1. lra.
      - rewrite <- Ei in *. apply coef_sign; [exact F1|].
        replace (Tx i (S c)) with (Tx (S k) (S c)) by (now rewrite Ei).
        apply enth_sign; [apply WT; fold n; lia|apply WT; fold n; lia|apply Ext; lia]. }
    assert (D : sg * (hf_bot q s i * (henth (Tx (S (S i)) (S c)) - henth (Tx (S i) (S c)))) <= 0).
    { destruct (Nat.eq_dec i (n - 1)) as [E1|E1].
      - destruct (hflows_ends n q Hn (hf_step n io f F) s) as [_ E2]. rewrite E1, E2. lra.
      - apply coef_sign; [exact F2|].
        apply enth_sign; [apply WT; fold n; lia|apply WT; fold n; lia|apply Ext; lia]. }
    lra. }
  assert (B : sg * rsum 4 (fun p => if here n i c p
        then hf_port q p * (henth (Tp p) - henth (Tx (S (port_row n p)) (S (port_col p))))
             / hcap g Tx (port_row n p) (port_col p) else 0) <= 0).
  { apply sum_sign. intros p Hp. unfold here.
    destruct ((port_row n p =? i)%nat && (port_col p =? c)%nat)%bool eqn:E1; [|lra].
    apply andb_true_iff in E1. rewrite !Nat.eqb_eq in E1. destruct E1 as [E1 E2].
    apply quot_sign; [apply capp; [apply row_ok|apply port_col_lt]|].
    rewrite E1, E2. apply coef_sign; [now apply port_nonneg|].
    apply enth_sign; [apply WP, Hp|apply WT; fold n; lia|now apply ExtP]. }
  lra.
Qed.
Lemma tot_sign : sg * hr_tot r i c <= 0.
Proof.
  change (hr_tot r i c) with (hr_cond r i c + hr_adv r i c).
  pose proof cond_sign. pose proof adv_sign. lra.
Qed.
End Sign.
End Max.

(** The largest and the smallest of finitely many values. *)
Lemma grid_extreme (v : grid) sg n : (1 <= n)%nat -> exists i c, (i < n)%nat /\ (c < 3)%nat /\
  forall i' c', (i' < n)%nat -> (c' < 3)%nat -> sg * (v i' c' - v i c) <= 0.
Proof.
  intros Hn.
  assert (A : forall m (w : nat -> R), (1 <= m)%nat -> exists k, (k < m)%nat /\ forall k', (k' < m)%nat -> w k' <= w k).
  { intros m w Hm. induction m as [|m IH]; [lia|]. destruct m as [|m].
    - exists 0%nat. split; [lia|]. intros k' Hk. replace k' with 0%nat by lia. lra.
    - destruct IH as (k & Hk & K); [lia|]. destruct (Rle_dec (w k) (w (S m))) as [L|L].
      + exists (S m). split; [lia|]. intros k' Hk'. destruct (Nat.eq_dec k' (S m)) as [->|N]; [lra|].
        specialize (K k' ltac:(lia)). lra.
      + exists k. split; [lia|]. intros k' Hk'. destruct (Nat.eq_dec k' (S m)) as [->|N]; [lra|].
        apply K; lia. }
  destruct (A (n * 3)%nat (fun k => sg * v (k / 3)%nat (k mod 3)%nat) ltac:(lia)) as (k & Hk & K).
  exists (k / 3)%nat, (k mod 3)%nat. split; [apply Nat.div_lt_upper_bound; lia|].
  split; [apply Nat.mod_upper_bound; lia|]. intros i c Hi Hc.
  specialize (K (i * 3 + c)%nat ltac:(nia)). cbv beta in K.
  assert (E1 : ((i * 3 + c) / 3)%nat = i).
  { rewrite Nat.div_add_l by lia. rewrite Nat.div_small by lia. lia. }
  assert (E2 : ((i * 3 + c) mod 3)%nat = c).
  { rewrite Nat.add_comm, Nat.mod_add by lia. apply Nat.mod_small, Hc. }
  rewrite E1, E2 in K. lra.
Qed.
