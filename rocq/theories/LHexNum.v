(** Proofs about the numeric heat exchanger (C87-C91). *)
From Coq Require Import Reals List Bool Arith Lra Lia.
From Verif Require Import MFlow MWater MDiff MMix MHexNum SFlow LFlow LDiff LWater LHex SMix SHexNum.
Open Scope R_scope.

Lemma flat3 (a : grid) i c : (c < 3)%nat -> flat 3 a (i * 3 + c) = a i c.
Proof.
  intros H. unfold flat. rewrite Nat.div_add_l, Nat.div_small, Nat.add_0_r by lia.
  replace ((i * 3 + c) mod 3)%nat with c; [reflexivity|].
  rewrite Nat.add_comm, Nat.mod_add, Nat.mod_small; lia.
Qed.
Lemma own_rc n p : (1 <= n)%nat -> (p < 4)%nat ->
  hexn_own n p = (port_row n p * 3 + port_col p)%nat.
Proof.
  intros Hn Hp. destruct p as [|[|[|[|p]]]]; cbn [hexn_own port_row port_col]; lia.
Qed.
Lemma flat_own n (a : grid) p : (1 <= n)%nat -> (p < 4)%nat ->
  flat 3 a (hexn_own n p) = a (port_row n p) (port_col p).
Proof.
  intros Hn Hp. rewrite own_rc by assumption. apply flat3.
  destruct p as [|[|[|[|p]]]]; cbn; lia.
Qed.

Lemma port_col_lt p : (port_col p < 3)%nat.
Proof. destruct p as [|[|[|p]]]; cbn; lia. Qed.

Definition here (n i c p : nat) : bool := ((port_row n p =? i) && (port_col p =? c))%nat.
Lemma here_own n i c p : (1 <= n)%nat -> (p < 4)%nat -> (c < 3)%nat ->
  (hexn_own n p =? i * 3 + c)%nat = here n i c p.
Proof.
  intros Hn Hp Hc. rewrite own_rc by assumption. unfold here.
  assert (port_col p < 3)%nat by (destruct p as [|[|[|[|p]]]]; cbn; lia).
  destruct (Nat.eqb_spec (port_row n p) i), (Nat.eqb_spec (port_col p) c),
    (Nat.eqb_spec (port_row n p * 3 + port_col p) (i * 3 + c)); try reflexivity; cbn; lia.
Qed.

Lemma hexn_add_val n c a i k : (1 <= n)%nat -> (k < 3)%nat ->
  hexn_add n c a i k = a i k + rsum 4 (fun p => if here n i k p then c p else 0).
Proof.
  intros Hn Hk. unfold hexn_add. destruct (Nat.ltb_spec k 3) as [_|H]; [|lia].
  rewrite add_ports_val, flat3 by exact Hk. f_equal. unfold at_cell. apply rsum_ext.
  intros p Hp. rewrite here_own by assumption. reflexivity.
Qed.

(** Summing the port contributions over all cells. *)
Lemma pick_col n p F : (1 <= n)%nat -> (p < 4)%nat ->
  rsum n (fun i => rsum 3 (fun c => if here n i c p then F i c else 0)) =
  F (port_row n p) (port_col p).
Proof.
  intros Hn Hp.
  rewrite (rsum_ext _ _ (fun i => if (port_row n p =? i)%nat then F i (port_col p) else 0)).
  - rewrite (rsum_pick n (port_row n p) (fun i => F i (port_col p))); [reflexivity|].
    destruct p as [|[|[|[|p]]]]; cbn; lia.
  - intros i _. cbn [rsum]. unfold here.
    destruct (port_row n p =? i)%nat; [|cbn; lra].
    destruct p as [|[|[|[|p]]]]; cbn; try lra; lia.
Qed.

Section Core.
Variables (g : hexn) (lamT : nat -> R) (io : arr) (f : hflows) (Tx : grid) (Tp : arr).
Let n := hn_n g.
Let r := hexn_body g lamT io f Tx Tp.
Hypothesis Hn : (1 <= n)%nat.

Lemma hr_mcp_cap i c : (c < 3)%nat -> hr_mcp r i c = hcap g Tx i c.
Proof.
  intros H. destruct c as [|[|[|c]]]; try lia; reflexivity.
Qed.
Lemma ua1_ends c : hr_ua1 r 0%nat c = 0 /\ hr_ua1 r n c = 0.
Proof.
  cbn [r hexn_body hr_ua1]. split; [reflexivity|].
  fold n. rewrite Nat.ltb_irrefl, andb_false_r. reflexivity.
Qed.
Lemma ua2_ends i : hr_ua2 r i 0%nat = 0 /\ hr_ua2 r i 3%nat = 0.
Proof. split; reflexivity. Qed.

Definition cond_inner (i c : nat) : R :=
  hr_ua1 r i c * (Tx i (S c) - Tx (S i) (S c)) + hr_ua1 r (S i) c * (Tx (S (S i)) (S c) - Tx (S i) (S c))
  + hr_ua2 r i c * (Tx (S i) c - Tx (S i) (S c)) + hr_ua2 r i (S c) * (Tx (S i) (S (S c)) - Tx (S i) (S c)).

Lemma hcond_val i c : (c < 3)%nat ->
  hr_cond r i c = cond_inner i c / hcap g Tx i c
    + rsum 4 (fun p => if here n i c p
        then hr_uap r p * (Tp p - Tx (S (port_row n p)) (S (port_col p)))
             / hcap g Tx (port_row n p) (port_col p) else 0).
Proof.
  intros Hc. rewrite <- (hr_mcp_cap i c Hc). unfold r at 1. cbn [hexn_body hr_cond].
  fold n. rewrite hexn_add_val by assumption. f_equal. apply rsum_ext. intros p Hp.
  destruct (here n i c p); [|reflexivity].
  rewrite !flat_own by assumption. f_equal. f_equal.
  apply (hr_mcp_cap (port_row n p) (port_col p)), port_col_lt.
Qed.

Definition adv_inner (i c : nat) : R :=
  if (c =? 1)%nat then 0 else
  hf_top f (c / 2) i * (henth (Tx i (S c)) - henth (Tx (S i) (S c)))
  + hf_bot f (c / 2) i * (henth (Tx (S (S i)) (S c)) - henth (Tx (S i) (S c))).

Lemma hadv_wall i : hr_adv r i 1%nat = 0.
Proof.
  unfold r. cbn [hexn_body hr_adv Nat.eqb]. fold n. rewrite hexn_add_val by (lia || assumption).
  cbn [Nat.eqb]. rewrite rsum_zero; [lra|]. intros p Hp. unfold here.
  destruct p as [|[|[|[|p]]]]; cbn [port_col Nat.eqb]; rewrite ?andb_false_r; reflexivity || lia.
Qed.
Lemma hadv_val i s : (s < 2)%nat ->
  hr_adv r i (2 * s)%nat = (adv_inner i (2 * s)%nat / hcap g Tx i (2 * s)%nat
    + rsum 4 (fun p => if here n i (2 * s) p
        then hf_port f p * (henth (Tp p) - henth (Tx (S (port_row n p)) (S (port_col p))))
             / hcap g Tx (port_row n p) (port_col p) else 0)) / INR (hn_div g s).
Proof.
  intros Hs.
  assert (Hc : (2 * s < 3)%nat) by lia.
  rewrite <- (hr_mcp_cap i (2 * s) Hc). unfold r at 1. cbn [hexn_body hr_adv].
  assert (E1 : (2 * s =? 1)%nat = false) by (destruct s as [|[|s]]; cbn; reflexivity || lia).
  rewrite E1. fold n. rewrite hexn_add_val by assumption. rewrite E1.
  assert (E2 : (2 * s / 2 = s)%nat) by (rewrite Nat.mul_comm; apply Nat.div_mul; lia).
  rewrite E2. f_equal. f_equal.
  - unfold adv_inner. rewrite E1, E2. unfold henth.
    destruct s as [|[|s]]; try lia; reflexivity.
  - apply rsum_ext. intros p Hp. destruct (here n i (2 * s) p); [|reflexivity].
    rewrite !flat_own by assumption. f_equal; [|f_equal].
    + unfold henth. destruct p as [|[|[|[|p]]]]; try lia; reflexivity.
    + apply (hr_mcp_cap (port_row n p) (port_col p)), port_col_lt.
Qed.

Hypothesis Hcap : forall i c, (i < n)%nat -> (c < 3)%nat -> hcap g Tx i c <> 0.

Lemma inner_zero : rsum n (fun i => rsum 3 (fun c => cond_inner i c)) = 0.
Proof.
  rewrite rsum_swap.
  assert (C : forall c, rsum n (fun i =>
     hr_ua1 r i c * (Tx i (S c) - Tx (S i) (S c))
     + hr_ua1 r (S i) c * (Tx (S (S i)) (S c) - Tx (S i) (S c))) = 0).
  { intros c. pose proof (ua1_ends c) as [E0 E1].
    rewrite (tele n (fun i => hr_ua1 r i c) (fun i => Tx i (S c)) E0). cbv beta. rewrite E1. lra. }
  cbn [rsum]. unfold cond_inner. rewrite Rplus_0_l.
  rewrite <- !rsum_plus.
  rewrite (rsum_ext _ _ (fun i =>
    (hr_ua1 r i 0%nat * (Tx i 1%nat - Tx (S i) 1%nat) + hr_ua1 r (S i) 0%nat * (Tx (S (S i)) 1%nat - Tx (S i) 1%nat))
    + (hr_ua1 r i 1%nat * (Tx i 2%nat - Tx (S i) 2%nat) + hr_ua1 r (S i) 1%nat * (Tx (S (S i)) 2%nat - Tx (S i) 2%nat))
    + (hr_ua1 r i 2%nat * (Tx i 3%nat - Tx (S i) 3%nat) + hr_ua1 r (S i) 2%nat * (Tx (S (S i)) 3%nat - Tx (S i) 3%nat)))).
  - pose proof (C 0%nat) as C0. pose proof (C 1%nat) as C1. pose proof (C 2%nat) as C2.
    rewrite !rsum_plus in *. lra.
  - intros i _. destruct (ua2_ends i) as [E0 E3]. rewrite E0, E3. ring.
Qed.

(** C87, conduction. *)
Lemma cond_balance : hheat g Tx (hr_cond r) = port_heat g (hr_uap r) Tx Tp.
Proof.
  unfold hheat. fold n.
  rewrite (rsum_ext _ _ (fun i => rsum 3 (fun c => cond_inner i c)
     + rsum 3 (fun c => rsum 4 (fun p => if here n i c p
        then hr_uap r p * (Tp p - Tx (S i) (S c)) else 0)))).
  - rewrite rsum_plus, inner_zero, Rplus_0_l.
    rewrite (rsum_ext _ _ (fun i => rsum 4 (fun p => rsum 3 (fun c => if here n i c p
        then hr_uap r p * (Tp p - Tx (S i) (S c)) else 0))))
      by (intros i _; apply rsum_swap).
    rewrite rsum_swap. unfold port_heat. fold n. apply rsum_ext. intros p Hp.
    apply (pick_col n p (fun i c => hr_uap r p * (Tp p - Tx (S i) (S c)))); assumption.
  - intros i Hi. rewrite <- rsum_plus. apply rsum_ext. intros c Hc.
    rewrite hcond_val by exact Hc. rewrite Rmult_plus_distr_l. f_equal.
    + field. apply Hcap; assumption.
    + rewrite <- rsum_scal. apply rsum_ext. intros p Hp. unfold here.
      destruct (Nat.eqb_spec (port_row n p) i) as [E|E]; [|cbn; ring].
      destruct (Nat.eqb_spec (port_col p) c) as [E'|E']; [|cbn; ring].
      cbn [andb]. rewrite E, E'. field. apply Hcap; assumption.
Qed.
End Core.

(** ** Flow arrays *)
Lemma hflows_ends n f : (1 <= n)%nat -> hflows_at n f -> forall s,
  hf_top f s 0%nat = 0 /\ hf_bot f s (n - 1)%nat = 0.
Proof.
  intros Hn F. induction F as [|io f F IH]; intros s; [split; reflexivity|].
  destruct (IH s) as [A B]. unfold hexn_flows, process_flow_multi. cbn [hf_top hf_bot].
  destruct (s <? 2)%nat; [|split; assumption].
  destruct (Rle_dec 0 (io s)); unfold fill; cbn [Nat.leb andb];
    rewrite ?Nat.ltb_irrefl, ?andb_false_r; split; assumption.
Qed.

(** Inner advection along one column. *)
Lemma adv_down m d (h : nat -> R) :
  rsum (S m) (fun i => (if (1 <=? i)%nat then d else 0) * (h i - h (S i))) = d * (h 1%nat - h (S m)).
Proof.
  induction m; [cbn; lra|].
  change (rsum (S (S m)) ?F) with (rsum (S m) F + F (S m)). rewrite IHm. cbn [Nat.leb]. lra.
Qed.
Lemma adv_up m d (h : nat -> R) :
  rsum (S m) (fun i => (if (i <? m)%nat then d else 0) * (h (S (S i)) - h (S i))) = d * (h (S m) - h 1%nat).
Proof.
  cbn [rsum]. rewrite Nat.ltb_irrefl, Rmult_0_l, Rplus_0_r.
  rewrite (rsum_ext _ _ (fun i => d * (h (S (S i)) - h (S i)))).
  - induction m; [cbn; lra|]. cbn [rsum]. rewrite IHm. lra.
  - intros i Hi. destruct (Nat.ltb_spec i m); [reflexivity|lia].
Qed.

Lemma flow_col n io f s : (1 <= n)%nat -> hflows_at n f -> (s < 2)%nat ->
  let q := hexn_flows n io f in
  (forall i, (i < n)%nat -> hf_top q s i = if (1 <=? i)%nat then Rmax 0 (io s) else 0) /\
  (forall i, (i < n)%nat -> hf_bot q s i = if (i <? n - 1)%nat then Rmax 0 (- io s) else 0) /\
  hf_port q (2 * s)%nat = Rmax 0 (io s) /\ hf_port q (2 * s + 1)%nat = Rmax 0 (- io s).
Proof.
  intros Hn F Hs q. destruct (hflows_ends n f Hn F s) as [A B].
  unfold q, hexn_flows, process_flow_multi. cbn [hf_top hf_bot hf_port].
  assert (E : (s <? 2)%nat = true) by (apply Nat.ltb_lt; exact Hs). rewrite E.
  assert (D0 : (2 * s / 2 = s)%nat) by (rewrite Nat.mul_comm; apply Nat.div_mul; lia).
  assert (D1 : ((2 * s + 1) / 2 = s)%nat)
    by (rewrite (Nat.mul_comm 2 s), Nat.div_add_l by lia; rewrite Nat.div_small by lia; lia).
  assert (P : forall k, (k < 4)%nat -> (k <? 2 * 2)%nat = true) by (intros; apply Nat.ltb_lt; lia).
  rewrite !P, D0, D1 by lia.
  replace (Nat.even (2 * s)) with true by (destruct s as [|[|s]]; reflexivity || lia).
  replace (Nat.even (2 * s + 1)) with false by (destruct s as [|[|s]]; reflexivity || lia).
  destruct (Rle_dec 0 (io s)) as [H|H].
  - rewrite (Rmax_right 0 (io s)), (Rmax_left 0 (- io s)) by lra.
    split; [|split; [|split; reflexivity]]; intros i Hi; unfold fill.
    + destruct (Nat.leb_spec 1 i), (Nat.ltb_spec i n); try lia; cbn [andb]; try reflexivity.
      replace i with 0%nat by lia. exact A.
    + cbn [Nat.leb andb]. destruct (Nat.ltb_spec i (n - 1)); [reflexivity|].
      replace i with (n - 1)%nat by lia. exact B.
  - rewrite (Rmax_left 0 (io s)), (Rmax_right 0 (- io s)) by lra.
    split; [|split; [|split; reflexivity]]; intros i Hi; unfold fill.
    + destruct (Nat.leb_spec 1 i), (Nat.ltb_spec i n); try lia; cbn [andb]; try reflexivity.
      replace i with 0%nat by lia. exact A.
    + cbn [Nat.leb andb]. destruct (Nat.ltb_spec i (n - 1)); [reflexivity|].
      replace i with (n - 1)%nat by lia. exact B.
Qed.

(** C87, advection: all channels of one side together. *)
Lemma adv_balance g lamT io f Tx Tp s : (1 <= hn_n g)%nat -> hflows_at (hn_n g) f -> (s < 2)%nat ->
  (1 <= hn_div g s)%nat ->
  (forall i c, (i < hn_n g)%nat -> (c < 3)%nat -> hcap g Tx i c <> 0) ->
  INR (hn_div g s) *
    hheat_col g Tx (hr_adv (hexn_body g lamT io (hexn_flows (hn_n g) io f) Tx Tp)) (2 * s)%nat
  = side_heat g io Tx Tp s.
Proof.
  intros Hn F Hs Hd Hcap. destruct (flow_col (hn_n g) io f s Hn F Hs) as (Ft & Fb & P0 & P1).
  set (q := hexn_flows (hn_n g) io f) in *. set (r := hexn_body g lamT io q Tx Tp).
  assert (D : INR (hn_div g s) <> 0) by (apply not_0_INR; lia).
  unfold hheat_col. rewrite <- rsum_scal.
  assert (E2 : (2 * s / 2 = s)%nat) by (rewrite Nat.mul_comm; apply Nat.div_mul; lia).
  assert (E1 : (2 * s =? 1)%nat = false) by (destruct s as [|[|s]]; cbn; reflexivity || lia).
  set (h := fun k => henth (Tx k (S (2 * s)%nat))).
  rewrite (rsum_ext _ _ (fun i =>
    (hf_top q s i * (h i - h (S i)) + hf_bot q s i * (h (S (S i)) - h (S i)))
    + ((if (0 =? i)%nat then Rmax 0 (io s) * (henth (Tp (2 * s)%nat) - h (S i)) else 0)
       + (if (hn_n g - 1 =? i)%nat then Rmax 0 (- io s) * (henth (Tp (2 * s + 1)%nat) - h (S i)) else 0)))).
  - rewrite !rsum_plus.
    rewrite (rsum_pick _ 0 (fun i => Rmax 0 (io s) * (henth (Tp (2 * s)%nat) - h (S i)))) by lia.
    rewrite (rsum_pick _ (hn_n g - 1) (fun i => Rmax 0 (- io s) * (henth (Tp (2 * s + 1)%nat) - h (S i)))) by lia.
    rewrite (rsum_ext _ (fun i => hf_top q s i * _)
      (fun i => (if (1 <=? i)%nat then Rmax 0 (io s) else 0) * (h i - h (S i))))
      by (intros i Hi; rewrite Ft by exact Hi; reflexivity).
    rewrite (rsum_ext _ (fun i => hf_bot q s i * _)
      (fun i => (if (i <? hn_n g - 1)%nat then Rmax 0 (- io s) else 0) * (h (S (S i)) - h (S i))))
      by (intros i Hi; rewrite Fb by exact Hi; reflexivity).
    destruct (hn_n g) as [|m] eqn:En; [lia|]. replace (S m - 1)%nat with m by lia.
    rewrite adv_down, adv_up. unfold side_heat. rewrite En. fold (h (S m)) (h 1%nat). lra.
  - intros i Hi. unfold r. rewrite hadv_val by assumption. fold q.
    unfold adv_inner. rewrite E1, E2. fold (h i) (h (S i)) (h (S (S i))).
    assert (Hc : (2 * s < 3)%nat) by lia.
    set (X := hf_top q s i * (h i - h (S i)) + hf_bot q s i * (h (S (S i)) - h (S i))).
    set (Y := rsum 4 _).
    replace (INR (hn_div g s) * (hcap g Tx i (2 * s)%nat * ((X / hcap g Tx i (2 * s)%nat + Y) / INR (hn_div g s))))
      with (X + hcap g Tx i (2 * s)%nat * Y) by (field; split; [apply Hcap; assumption|exact D]).
    f_equal. unfold Y. rewrite <- rsum_scal.
    assert (G : forall p, (p < 4)%nat -> port_col p = (2 * s)%nat -> forall V, 
      hcap g Tx i (2 * s)%nat * (if here (hn_n g) i (2 * s)%nat p then V / hcap g Tx (port_row (hn_n g) p) (port_col p) else 0)
      = if (port_row (hn_n g) p =? i)%nat then V else 0).
    { intros p Hp Ec V. unfold here. rewrite Ec, Nat.eqb_refl, andb_true_r.
      destruct (Nat.eqb_spec (port_row (hn_n g) p) i) as [Er|Er]; [|ring].
      rewrite Er. field. apply Hcap; assumption. }
    assert (Z : forall p, port_col p <> (2 * s)%nat -> forall V,
      hcap g Tx i (2 * s)%nat * (if here (hn_n g) i (2 * s)%nat p then V else 0) = 0).
    { intros p Ec V. unfold here. destruct (Nat.eqb_spec (port_col p) (2 * s)); [contradiction|].
      rewrite andb_false_r. ring. }
    cbn [rsum]. destruct s as [|[|s]]; [| |lia].
    + rewrite (Z 2%nat), (Z 3%nat) by (cbn; lia).
      rewrite (G 0%nat), (G 1%nat) by (cbn; lia). cbn [port_row port_col].
      change (2 * 0)%nat with 0%nat in *. change (0 + 1)%nat with 1%nat in *. rewrite P0, P1.
      destruct (Nat.eqb_spec 0 i) as [E0|_], (Nat.eqb_spec (hn_n g - 1) i) as [E3|_];
        try rewrite E3; try rewrite <- E0; unfold h; try lra.
    + rewrite (Z 0%nat), (Z 1%nat) by (cbn; lia).
      rewrite (G 2%nat), (G 3%nat) by (cbn; lia). cbn [port_row port_col].
      change (2 * 1)%nat with 2%nat in *. change (2 + 1)%nat with 3%nat in *. rewrite P0, P1.
      destruct (Nat.eqb_spec 0 i) as [E0|_], (Nat.eqb_spec (hn_n g - 1) i) as [E3|_];
        try rewrite E3; try rewrite <- E0; unfold h; try lra.
Qed.
