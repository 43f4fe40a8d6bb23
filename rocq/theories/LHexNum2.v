(** Numeric heat exchanger: steady states, resolution of the plate, ports, step check. *)
From Coq Require Import Reals List Bool Arith Lra Lia.
From Verif Require Import MFlow MWater MDiff MMix MHexNum SFlow LFlow LDiff LWater LHex SMix SHexNum LHexNum.
Open Scope R_scope.

Lemma hcap_pos g Tx Tp i c : hn_ok g -> hn_range g Tx Tp -> (i < hn_n g)%nat -> (c < 3)%nat ->
  0 < hcap g Tx i c.
Proof.
  intros G [W _] Hi Hc.
  destruct G as (_ & _ & _ & _ & _ & _ & _ & _ & _ & V & _ & M & _).
  pose proof (W i c Hi Hc) as T. pose proof (rho_bounds _ T). pose proof (cp_bounds _ T).
  destruct c as [|[|[|c]]]; [| | |lia]; cbn [hcap]; try exact M;
    (apply Rmult_lt_0_compat; [exact V|apply Rmult_lt_0_compat; lra]).
Qed.

(** ** Uniform temperature *)
Lemma rsum4_zero f : (forall p, (p < 4)%nat -> f p = 0) -> rsum 4 f = 0.
Proof. apply rsum_zero. Qed.
Lemma uniform_zero g lamT io f Tx Tp tau : (1 <= hn_n g)%nat -> hflows_at (hn_n g) f ->
  (forall i c, (i < hn_n g)%nat -> (c < 3)%nat -> Tx (S i) (S c) = tau) ->
  (forall p, (p < 4)%nat -> Tp p = tau) ->
  forall i c, (i < hn_n g)%nat -> (c < 3)%nat ->
  hr_tot (hexn_body g lamT io (hexn_flows (hn_n g) io f) Tx Tp) i c = 0.
Proof.
  intros Hn F HT HP i c Hi Hc. set (q := hexn_flows (hn_n g) io f).
  set (r := hexn_body g lamT io q Tx Tp).
  assert (PT : forall p, (p < 4)%nat -> Tp p = Tx (S (port_row (hn_n g) p)) (S (port_col p))).
  { intros p Hp. rewrite HP by exact Hp. symmetry. apply HT; [|apply port_col_lt].
    destruct p as [|[|[|[|p]]]]; cbn; lia. }
  assert (C : hr_cond r i c = 0).
  { unfold r. rewrite hcond_val by assumption. fold r.
    rewrite rsum4_zero.
    2:{ intros p Hp. destruct (here _ _ _ _); [|reflexivity]. rewrite (PT p Hp). unfold Rdiv. ring. }
    replace (cond_inner g lamT io q Tx Tp i c) with 0; [unfold Rdiv; ring|].
    unfold cond_inner. fold r. rewrite (HT i c Hi Hc).
    assert (U : hr_ua1 r i c * (Tx i (S c) - tau) = 0).
    { destruct i as [|i]; [destruct (ua1_ends g lamT io q Tx Tp c) as [E _]; fold r in E; rewrite E; ring|].
      rewrite HT by lia. ring. }
    assert (D : hr_ua1 r (S i) c * (Tx (S (S i)) (S c) - tau) = 0).
    { destruct (Nat.eq_dec (S i) (hn_n g)) as [E|E].
      - destruct (ua1_ends g lamT io q Tx Tp c) as [_ E1]. fold r in E1. rewrite <- E in E1. rewrite E1. ring.
      - rewrite HT by lia. ring. }
    assert (L : hr_ua2 r i c * (Tx (S i) c - tau) = 0).
    { destruct c as [|c]; [destruct (ua2_ends g lamT io q Tx Tp i) as [E _]; fold r in E; rewrite E; ring|].
      rewrite HT by lia. ring. }
    assert (Rr : hr_ua2 r i (S c) * (Tx (S i) (S (S c)) - tau) = 0).
    { destruct (Nat.eq_dec c 2) as [->|E].
      - destruct (ua2_ends g lamT io q Tx Tp i) as [_ E]. fold r in E. rewrite E. ring.
      - rewrite HT by lia. ring. }
    lra. }
  assert (A : hr_adv r i c = 0).
  { destruct (Nat.eq_dec c 1) as [->|Ec]; [apply hadv_wall; assumption|].
    assert (exists s, (s < 2)%nat /\ c = (2 * s)%nat) as (s & Hs & ->)
      by (destruct c as [|[|[|c]]]; [exists 0%nat|lia|exists 1%nat|lia]; lia).
    unfold r. rewrite hadv_val by assumption. rewrite rsum4_zero.
    2:{ intros p Hp. destruct (here _ _ _ _); [|reflexivity]. rewrite (PT p Hp). unfold Rdiv. ring. }
    replace (adv_inner q Tx i (2 * s)) with 0; [unfold Rdiv; ring|].
    unfold adv_inner. replace (2 * s =? 1)%nat with false by (destruct s as [|[|s]]; reflexivity || lia).
    replace (2 * s / 2)%nat with s by (rewrite Nat.mul_comm, Nat.div_mul; lia).
    destruct (flow_col (hn_n g) io f s Hn F Hs) as (Ft & Fb & _ & _). fold q in Ft, Fb.
    rewrite (Ft i Hi), (Fb i Hi). rewrite (HT i (2 * s)%nat Hi Hc).
    destruct i as [|i]; cbn [Nat.leb].
    - destruct (Nat.ltb_spec 0 (hn_n g - 1)); [rewrite HT by lia|]; ring.
    - rewrite (HT i) by lia.
      destruct (Nat.ltb_spec (S i) (hn_n g - 1)); [rewrite HT by lia|]; ring. }
  change (hr_tot r i c) with (hr_cond r i c + hr_adv r i c). rewrite C, A. ring.
Qed.

(** ** Steady states *)
Lemma steady_balance g lamT io f Tx Tp : hn_ok g -> hn_range g Tx Tp -> hflows_at (hn_n g) f ->
  let r := hexn_body g lamT io (hexn_flows (hn_n g) io f) Tx Tp in steady g r ->
  side_heat g io Tx Tp 0 / INR (hn_div g 0) + side_heat g io Tx Tp 1 / INR (hn_div g 1)
  + port_heat g (hr_uap r) Tx Tp = 0.
Proof.
  intros G W F r S. pose proof G as (Hn & D0 & D1 & _).
  assert (Hc : forall i c, (i < hn_n g)%nat -> (c < 3)%nat -> hcap g Tx i c <> 0).
  { intros i c Hi Hc. apply Rgt_not_eq, (hcap_pos g Tx Tp); assumption. }
  pose proof (cond_balance g lamT io (hexn_flows (hn_n g) io f) Tx Tp Hn Hc) as C. fold r in C.
  pose proof (adv_balance g lamT io f Tx Tp 0 Hn F ltac:(lia) D0 Hc) as A0. fold r in A0.
  pose proof (adv_balance g lamT io f Tx Tp 1 Hn F ltac:(lia) D1 Hc) as A1. fold r in A1.
  rewrite <- A0, <- A1, <- C.
  assert (X : forall x k, (1 <= k)%nat -> INR k * x / INR k = x)
    by (intros x k K; field; apply not_0_INR; lia).
  rewrite !X by assumption. change (2 * 0)%nat with 0%nat. change (2 * 1)%nat with 2%nat.
  unfold hheat_col, hheat. rewrite <- !rsum_plus. apply rsum_zero. intros i Hi. cbn [rsum].
  pose proof (S i 0%nat Hi ltac:(lia)) as S0. pose proof (S i 1%nat Hi ltac:(lia)) as S1.
  pose proof (S i 2%nat Hi ltac:(lia)) as S2.
  change (hr_tot r i ?c) with (hr_cond r i c + hr_adv r i c) in *.
  assert (hr_adv r i 1%nat = 0) by (apply hadv_wall; exact Hn).
  replace (hr_cond r i 0%nat) with (- hr_adv r i 0%nat) by lra.
  replace (hr_cond r i 1%nat) with 0 by lra.
  replace (hr_cond r i 2%nat) with (- hr_adv r i 2%nat) by lra. ring.
Qed.

(** One row of cells. *)
Lemma one_row g lamT io f Tx Tp : hn_ok g -> hn_range g Tx Tp -> hflows_at (hn_n g) f ->
  hn_n g = 1%nat ->
  let r := hexn_body g lamT io (hexn_flows (hn_n g) io f) Tx Tp in
  let Ts := Tx 1%nat 1%nat in let Tw := Tx 1%nat 2%nat in let Td := Tx 1%nat 3%nat in
  hr_ua2 r 0%nat 1%nat * (Tw - Ts) + hr_uap r 0%nat * (Tp 0%nat - Ts) + hr_uap r 1%nat * (Tp 1%nat - Ts)
    + side_heat g io Tx Tp 0 / INR (hn_div g 0) = hcap g Tx 0 0 * hr_tot r 0%nat 0%nat /\
  hr_ua2 r 0%nat 1%nat * (Ts - Tw) + hr_ua2 r 0%nat 2%nat * (Td - Tw) = hcap g Tx 0 1 * hr_tot r 0%nat 1%nat /\
  hr_ua2 r 0%nat 2%nat * (Tw - Td) + hr_uap r 2%nat * (Tp 2%nat - Td) + hr_uap r 3%nat * (Tp 3%nat - Td)
    + side_heat g io Tx Tp 1 / INR (hn_div g 1) = hcap g Tx 0 2 * hr_tot r 0%nat 2%nat.
Proof.
  intros G W F N1 r Ts Tw Td. pose proof G as (Hn & D0 & D1 & _).
  assert (Hc : forall i c, (i < hn_n g)%nat -> (c < 3)%nat -> hcap g Tx i c <> 0).
  { intros i c Hi Hc. apply Rgt_not_eq, (hcap_pos g Tx Tp); assumption. }
  pose proof (adv_balance g lamT io f Tx Tp 0 Hn F ltac:(lia) D0 Hc) as A0. fold r in A0.
  pose proof (adv_balance g lamT io f Tx Tp 1 Hn F ltac:(lia) D1 Hc) as A1. fold r in A1.
  unfold hheat_col in A0, A1. rewrite N1 in A0, A1. cbn [rsum Nat.mul Nat.add] in A0, A1.
  pose proof (Hc 0%nat 0%nat ltac:(lia) ltac:(lia)) as H0.
  pose proof (Hc 0%nat 1%nat ltac:(lia) ltac:(lia)) as H1.
  pose proof (Hc 0%nat 2%nat ltac:(lia) ltac:(lia)) as H2.
  set (q := hexn_flows (hn_n g) io f) in *.
  assert (E : forall c, (c < 3)%nat -> hr_tot r 0%nat c = hr_cond r 0%nat c + hr_adv r 0%nat c) by reflexivity.
  assert (B : forall c, hr_ua1 r 0%nat c = 0 /\ hr_ua1 r 1%nat c = 0).
  { intros c. pose proof (ua1_ends g lamT io q Tx Tp c) as [X Y]. fold r in X, Y.
    rewrite N1 in Y. split; assumption. }
  assert (L : hr_ua2 r 0%nat 0%nat = 0 /\ hr_ua2 r 0%nat 3%nat = 0) by (split; reflexivity).
  destruct L as [L0 L3].
  assert (CV : forall c, (c < 3)%nat -> hr_cond r 0%nat c
    = (hr_ua1 r 0%nat c * (Tx 0%nat (S c) - Tx 1%nat (S c)) + hr_ua1 r 1%nat c * (Tx 2%nat (S c) - Tx 1%nat (S c))
       + hr_ua2 r 0%nat c * (Tx 1%nat c - Tx 1%nat (S c)) + hr_ua2 r 0%nat (S c) * (Tx 1%nat (S (S c)) - Tx 1%nat (S c)))
      / hcap g Tx 0 c
    + rsum 4 (fun p => if here (hn_n g) 0 c p
        then hr_uap r p * (Tp p - Tx (S (port_row (hn_n g) p)) (S (port_col p)))
             / hcap g Tx (port_row (hn_n g) p) (port_col p) else 0))
    by (intros c Hc'; exact (hcond_val g lamT io q Tx Tp Hn 0%nat c Hc')).
  assert (I0 : INR (hn_div g 0) <> 0) by (apply not_0_INR; lia).
  assert (I1 : INR (hn_div g 1) <> 0) by (apply not_0_INR; lia).
  split; [|split].
  - rewrite E by lia. rewrite CV by lia. destruct (B 0%nat) as [B0 B1]. rewrite B0, B1, L0, N1.
    cbn [rsum here port_row port_col Nat.eqb andb Nat.sub]. rewrite <- A0. unfold Ts, Tw.
    field. split; assumption.
  - rewrite E by lia. assert (AW : hr_adv r 0%nat 1%nat = 0) by (apply hadv_wall; exact Hn). rewrite AW.
    rewrite CV by lia. destruct (B 1%nat) as [B0 B1]. rewrite B0, B1, N1.
    cbn [rsum here port_row port_col Nat.eqb andb Nat.sub]. unfold Ts, Tw, Td. field. assumption.
  - rewrite E by lia. rewrite CV by lia. destruct (B 2%nat) as [B0 B1]. rewrite B0, B1, L3, N1.
    cbn [rsum here port_row port_col Nat.eqb andb Nat.sub]. rewrite <- A1. unfold Td, Tw.
    field. split; assumption.
Qed.
