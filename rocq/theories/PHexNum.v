(** Numeric heat exchanger: C87-C91. *)
From Coq Require Import Reals List Bool Arith Lra Lia.
From Verif Require Import MFlow MWater MDiff MMix MHexNum SFlow LFlow LDiff LWater LHex SMix SHexNum
  LHexNum LHexNum2 LHexNum3 LHexNum4 LHexNum5.
Open Scope R_scope.

Lemma cap_ne g Tx Tp : hn_ok g -> hn_range g Tx Tp ->
  forall i c, (i < hn_n g)%nat -> (c < 3)%nat -> hcap g Tx i c <> 0.
Proof. intros G W i c Hi Hc. apply Rgt_not_eq, (hcap_pos g Tx Tp); assumption. Qed.

Lemma nat_above x : exists n, x < INR n.
Proof.
  exists (Z.to_nat (up (Rabs x))). destruct (archimed (Rabs x)) as [H _].
  pose proof (Rle_abs x). pose proof (Rabs_pos x).
  assert (0 < up (Rabs x))%Z by (apply lt_IZR; lra).
  rewrite INR_IZR_INZ, Z2Nat.id by lia. lra.
Qed.

(** ** C87: heat inside the exchanger is only moved *)
(** Conduction along the channels, along the plate and across the plate moves heat between the
    cells; the sum over all cells is what comes in through the ports. *)
Theorem C87_conduction : forall g junk io f Tx Tp, hn_ok g -> hn_range g Tx Tp ->
  hflows_at (hn_n g) f ->
  let r := hexn_diff g junk io f Tx Tp in
  hheat g Tx (hr_cond r) = port_heat g (hr_uap r) Tx Tp.
Proof.
  intros g junk io f Tx Tp G W F r. apply cond_balance; [apply G|]. now apply (cap_ne g Tx Tp).
Qed.
(** The water flowing through all channels of a side gives them the difference of the enthalpies
    at inlet and outlet, whatever the flow direction and after any earlier flows; the plate is not
    touched. *)
Theorem C87_advection : forall g junk io f Tx Tp s, hn_ok g -> hn_range g Tx Tp ->
  hflows_at (hn_n g) f -> (s < 2)%nat ->
  let r := hexn_diff g junk io f Tx Tp in
  INR (hn_div g s) * hheat_col g Tx (hr_adv r) (2 * s) = side_heat g io Tx Tp s /\
  (forall i, hr_adv r i 1%nat = 0).
Proof.
  intros g junk io f Tx Tp s G W F Hs r. pose proof G as (Hn & D0 & D1 & _). split.
  - apply adv_balance; try assumption; [destruct s as [|[|s]]; assumption || lia|].
    now apply (cap_ne g Tx Tp).
  - intros i. apply hadv_wall. exact Hn.
Qed.
(** Equal temperatures everywhere stay as they are, whatever the flows. *)
Theorem C87_uniform : forall g junk io f Tx Tp tau, (1 <= hn_n g)%nat -> hflows_at (hn_n g) f ->
  (forall i c, (i < hn_n g)%nat -> (c < 3)%nat -> Tx (S i) (S c) = tau) ->
  (forall p, (p < 4)%nat -> Tp p = tau) ->
  forall i c, (i < hn_n g)%nat -> (c < 3)%nat ->
  hr_tot (hexn_diff g junk io f Tx Tp) i c = 0.
Proof. intros. now apply uniform_zero with tau. Qed.
(** One row of cells after a flow reversal: 2 kg/s of supply water entering at 70 degrees and
    leaving at 60. *)
Example C87_example : forall junk,
  let g := gw 3 2 1 in let io := iow 2 1 in let f := hexn_flows 1 (iow (-1) 3) hflows0 in
  hn_ok g /\ hn_range g (Txw 50) Tpw /\ hflows_at (hn_n g) f /\
  3 * hheat_col g (Txw 50) (hr_adv (hexn_diff g junk io f (Txw 50) Tpw)) 0
    = 2 * (henth 70 - henth 60).
Proof.
  intros junk g io f.
  assert (G : hn_ok g) by (apply gw_ok; lia || lra).
  assert (W : hn_range g (Txw 50) Tpw) by (apply Txw_range; lra).
  assert (F : hflows_at (hn_n g) f) by (apply hf_step, hf_new).
  split; [exact G|]. split; [exact W|]. split; [exact F|].
  pose proof (C87_advection g junk io f (Txw 50) Tpw 0 G W F ltac:(lia)) as [A _].
  change (2 * 0)%nat with 0%nat in A. replace (INR (hn_div g 0)) with 3 in A by (cbn; lra). rewrite A.
  unfold side_heat. cbn [io iow g gw hn_n Nat.mul Nat.add Tpw Txw].
  rewrite (Rmax_right 0 2), (Rmax_left 0 (- (2))) by lra. ring.
Qed.
Print Assumptions C87_conduction.
Print Assumptions C87_advection.
Print Assumptions C87_uniform.

(** ** C88: energy balance between the two streams *)
(** In a steady state the heat given off per channel of one side equals the heat taken up per
    channel of the other; with equal numbers of channels and no conduction through the ports the
    two streams balance. *)
Theorem C88_steady_partial : forall g junk io f Tx Tp, hn_ok g -> hn_range g Tx Tp ->
  hflows_at (hn_n g) f ->
  let r := hexn_diff g junk io f Tx Tp in steady g r ->
  let Q := side_heat g io Tx Tp in
  Q 0%nat / INR (hn_div g 0) + Q 1%nat / INR (hn_div g 1) + port_heat g (hr_uap r) Tx Tp = 0 /\
  (hn_div g 0 = hn_div g 1 -> port_heat g (hr_uap r) Tx Tp = 0 -> Q 0%nat + Q 1%nat = 0) /\
  (port_heat g (hr_uap r) Tx Tp = 0 -> Q 0%nat <> 0 -> hn_div g 0 <> hn_div g 1 ->
   Q 0%nat + Q 1%nat <> 0).
Proof.
  intros g junk io f Tx Tp G W F r S Q. pose proof G as (_ & D0 & D1 & _).
  pose proof (steady_balance g _ io f Tx Tp G W F S) as B. fold (hexn_diff g junk io f Tx Tp) in B.
  fold r in B.
  assert (I0 : INR (hn_div g 0) <> 0) by (apply not_0_INR; lia).
  assert (I1 : INR (hn_div g 1) <> 0) by (apply not_0_INR; lia).
  split; [exact B|]. split.
  - intros E Z. rewrite Z, E in B. fold Q in B.
    replace (Q 0%nat + Q 1%nat) with ((Q 0%nat / INR (hn_div g 1) + Q 1%nat / INR (hn_div g 1) + 0) * INR (hn_div g 1))
      by (field; exact I1). rewrite B. ring.
  - intros Z N E T. rewrite Z in B. fold Q in B. replace (Q 1%nat) with (- Q 0%nat) in B by lra.
    assert (X : Q 0%nat * (INR (hn_div g 1) - INR (hn_div g 0)) = 0).
    { replace (Q 0%nat * (INR (hn_div g 1) - INR (hn_div g 0))) with
        ((Q 0%nat / INR (hn_div g 0) + - Q 0%nat / INR (hn_div g 1) + 0) * (INR (hn_div g 0) * INR (hn_div g 1)))
        by (field; split; assumption). rewrite B. ring. }
    apply Rmult_integral in X. destruct X as [X|X]; [contradiction|].
    apply E, INR_eq. lra.
Qed.
(** A one-pass exchanger always has different numbers of channels, and for every accepted number
    of plates (from four on) there is a steady state in which the heat put in does not match the
    heat taken out. *)
Theorem C88_one_pass_refuted : forall junk plates ms nch, (4 <= plates)%nat ->
  channels 1 plates ms = Some nch ->
  exists g io Tx Tp, hn_ok g /\ (hn_div g 0%nat, hn_div g 1%nat) = nch /\ hn_range g Tx Tp /\
    0 < io 0%nat /\ io 1%nat < 0 /\
    let r := hexn_diff g junk io hflows0 Tx Tp in
    steady g r /\
    side_heat g io Tx Tp 0 + side_heat g io Tx Tp 1 + port_heat g (hr_uap r) Tx Tp <> 0.
Proof.
  intros junk plates ms nch Hp C.
  assert (N : (1 <= fst nch)%nat /\ (1 <= snd nch)%nat /\ fst nch <> snd nch).
  { cbn [channels] in C. destruct (Nat.even plates); [|discriminate].
    assert (2 <= plates / 2)%nat by (apply (Nat.div_le_mono 4 plates 2); lia).
    set (k := (plates / 2)%nat) in *. clearbody k.
    destruct ms; injection C as <-; cbn [fst snd]; lia. }
  destruct N as (N0 & N1 & NE).
  destruct (no_balance junk (fst nch) (snd nch) N0 N1 NE) as (A & a & b & Tw & PA & Pa & Pb & HT & S & B).
  exists (gw (fst nch) (snd nch) A), (iow a b), (Txw Tw), Tpw.
  split; [apply gw_ok; assumption|]. split; [destruct nch; reflexivity|].
  split; [apply Txw_range; lra|]. split; [exact Pa|]. split; [cbn [iow]; lra|].
  split; [exact S|exact B].
Qed.
(** Each side of an accepted exchanger has its channels: all gaps between the plates are used, passes
    share them evenly, and with one pass the chosen side has one channel more than the other. *)
Theorem C88_channels : forall passes plates ms nch, (2 <= plates)%nat ->
  channels passes plates ms = Some nch ->
  (passes * (fst nch + snd nch) = plates - 1)%nat /\
  (passes = 1%nat -> if ms then fst nch = S (snd nch) else snd nch = S (fst nch)) /\
  ((2 <= passes)%nat -> fst nch = snd nch).
Proof.
  intros passes plates ms nch Hp H. destruct passes as [|[|passes]]; [discriminate| |].
  - cbn [channels] in H. destruct (Nat.even plates) eqn:E; [|discriminate].
    apply Nat.even_spec in E. destruct E as [m E].
    assert (D : (plates / 2 = m)%nat) by (rewrite E, Nat.mul_comm; apply Nat.div_mul; lia).
    rewrite D in H. destruct ms; injection H as <-; cbn [fst snd]; repeat split; intros; lia.
  - remember (S (S passes)) as q eqn:Q. assert (Hq : (2 <= q)%nat) by lia.
    assert (H' : (if ((plates - 1) mod (2 * q) =? 0)%nat
      then Some ((plates - 1) / (q * 2), (plates - 1) / (q * 2))%nat else None) = Some nch)
      by (rewrite <- H, Q; reflexivity).
    destruct ((plates - 1) mod (2 * q) =? 0)%nat eqn:E; [|discriminate].
    apply Nat.eqb_eq in E. injection H' as <-. cbn [fst snd].
    pose proof (Nat.div_mod (plates - 1) (2 * q) ltac:(lia)) as D. rewrite E in D.
    rewrite (Nat.mul_comm q 2). split; [lia|]. split; [intros; lia|reflexivity].
Qed.
Print Assumptions C88_channels.
Example C88_example : channels 1 6 true = Some (3, 2)%nat /\ channels 2 9 true = Some (2, 2)%nat /\
  channels 1 5 true = None /\ channels 1 2 true = Some (1, 0)%nat.
Proof. repeat split; reflexivity. Qed.
Print Assumptions C88_steady_partial.
Print Assumptions C88_one_pass_refuted.

(** ** C89: the plate has the same area whatever the number of grid points *)
(** The plate is a rectangle with four rounded corners and four ports. *)
Theorem C89_area : forall L W dp rc,
  plate_area L W dp rc =
    (L - 2 * rc) * (W - 2 * rc) + 2 * (rc * (L - 2 * rc)) + 2 * (rc * (W - 2 * rc))
    + 4 * (PI * rc ^ 2 / 4) - 4 * (PI * (dp / 2) ^ 2).
Proof. intros; unfold plate_area. field. Qed.
Print Assumptions C89_area.
(** With a single row the heat leaving the supply water of a channel stays below what half of
    the plate can conduct. *)
Theorem C89_single_partial : forall junk nch L W dp rc sch sp lamw mpp cpw corr pA pgsp psub pw
  f Tx Tp Tw, let A := plate_area L W dp rc in
  let Ts := Tx 1%nat 1%nat in
  0 < A -> 0 < sch -> 0 < sp -> 0 < lamw -> 0 < corr <= 2300 -> 0 <= Ts <= 100 -> Tw < Ts ->
  let r := hexn_diff (hexn_of 1 1 nch L W dp rc sch sp lamw mpp cpw corr pA pgsp psub pw) junk
             (fun _ => 0) f Tx Tp in
  hr_ua2 r 0%nat 1%nat * (Ts - Tw) <= lamw * A / (sp / 2) * (Ts - Tw).
Proof.
  intros. rewrite <- (Rplus_0_l (_ * _)).
  refine (area_one 1 L W dp rc sch sp lamw mpp cpw corr pA pgsp psub pw nch
    (flat_lam 1 junk (hexn_lam Tx)) f Tx Tp Ts Tw _ _ _ _ _ _ _ _ eq_refl); try assumption.
  intros i Hi. replace i with 0%nat by lia. reflexivity.
Qed.
(** From some number of grid points on, the heat flow exceeds that limit, although nothing but
    the discretisation has changed: still water at [Ts] next to a plate at [Tw]. *)
Theorem C89_grid_refuted : forall nch L W dp rc sch sp lamw mpp cpw corr pA pgsp psub pw Ts Tw,
  let A := plate_area L W dp rc in
  0 < A -> 0 < sch -> 0 < sp -> 0 < lamw -> 0 < corr <= 2300 -> 0 <= Ts <= 100 -> Tw < Ts ->
  exists n0, forall n junk f Tx Tp, (n0 <= n)%nat ->
  (forall i, (i < n)%nat -> Tx (S i) 1%nat = Ts) ->
  let r := hexn_diff (hexn_of n 1 nch L W dp rc sch sp lamw mpp cpw corr pA pgsp psub pw) junk
             (fun _ => 0) f Tx Tp in
  lamw * A / (sp / 2) * (Ts - Tw) < rsum n (fun i => hr_ua2 r i 1%nat * (Ts - Tw)).
Proof.
  intros nch L W dp rc sch sp lamw mpp cpw corr pA pgsp psub pw Ts Tw A HA Hs Hp Hl Hc HT Hd.
  destruct (nat_above ((2 * sch / 1.7 + sp / 2 / lamw) * (lamw / (sp / 2)))) as [n0 N].
  exists n0. intros n junk f Tx Tp Hn HX r.
  refine (area_many n L W dp rc sch sp lamw mpp cpw corr pA pgsp psub pw nch
    (flat_lam n junk (hexn_lam Tx)) f Tx Tp Ts Tw _ _ _ _ _ _ _ _ _); try assumption.
  apply Rlt_le_trans with (INR n0); [exact N|apply le_INR, Hn].
Qed.
(** A plate of 0.5 m x 0.1 m and half a millimetre of steel, channels of 2 mm: 200 grid points
    suffice. *)
Example C89_example : 0 < plate_area (1/2) (1/10) (1/50) 0 /\
  (2 * (1/500) / 1.7 + 1/2000 / 2 / 15) * (15 / (1/2000 / 2)) < INR 200.
Proof. split; [exact area_v|]. replace (INR 200) with 200 by (rewrite INR_IZR_INZ; reflexivity). lra. Qed.
Print Assumptions C89_single_partial.
Print Assumptions C89_grid_refuted.

(** ** C90: conduction through a port depends on the water at the port *)
Definition port_conductance (g : hexn) (Tx : grid) (Tp : arr) (p : nat) : R :=
  hn_pA g p / (hn_pgsp g p / (2 * lambda_water (Tp p))
    + hn_gsp g / (2 * lambda_water (Tx (S (port_row (hn_n g) p)) (S (port_col p))))) + hn_pw g p.
(** True of the first supply port, and of all ports in the methods of the class that pass the
    full conductivity array. *)
Theorem C90_ports_partial : forall g io f Tx Tp, (1 <= hn_n g)%nat ->
  (forall junk, hr_uap (hexn_diff g junk io f Tx Tp) 0%nat = port_conductance g Tx Tp 0) /\
  (forall p, (p < 4)%nat -> hr_uap (hexn_diff_method g io f Tx Tp) p = port_conductance g Tx Tp p).
Proof.
  intros g io f Tx Tp Hn. split.
  - intros junk. now apply uap_first.
  - intros p Hp. now apply uap_method.
Qed.
(** The upper demand port: with at least two rows the compiled differential takes the
    conductivity of the supply water in the second row. *)
Theorem C90_wrong_cell_refuted : forall g junk io f Tx Tp, hn_ok g -> (2 <= hn_n g)%nat ->
  hn_range g Tx Tp -> lambda_water (Tx 1%nat 3%nat) <> lambda_water (Tx 2%nat 1%nat) ->
  hr_uap (hexn_diff g junk io f Tx Tp) 2%nat <> port_conductance g Tx Tp 2.
Proof.
  intros g junk io f Tx Tp G Hn [WT WP] N E. rewrite uap_top in E by exact Hn.
  unfold port_conductance in E. cbn [port_row port_col] in E. apply Rplus_eq_reg_r in E.
  destruct G as (_ & _ & _ & _ & Pg & _ & _ & _ & _ & _ & _ & _ & _ & _ & PP).
  destruct (PP 2%nat ltac:(lia)) as (P1 & P2 & _).
  pose proof (lambda_bounds _ (WP 2%nat ltac:(lia))) as L0.
  pose proof (lambda_bounds _ (WT 0%nat 2%nat ltac:(lia) ltac:(lia))) as L1.
  pose proof (lambda_bounds _ (WT 1%nat 0%nat ltac:(lia) ltac:(lia))) as L2.
  set (a := hn_pgsp g 2%nat / (2 * lambda_water (Tp 2%nat))) in *.
  assert (0 < a) by (apply Rdiv_lt_0_compat; lra).
  set (l1 := lambda_water (Tx 1%nat 3%nat)) in *. set (l2 := lambda_water (Tx 2%nat 1%nat)) in *.
  assert (0 < hn_gsp g / (2 * l1)) by (apply Rdiv_lt_0_compat; lra).
  assert (0 < hn_gsp g / (2 * l2)) by (apply Rdiv_lt_0_compat; lra).
  unfold Rdiv at 1 3 in E. apply Rmult_eq_reg_l in E; [|lra].
  assert (E' : a + hn_gsp g / (2 * l2) = a + hn_gsp g / (2 * l1)).
  { rewrite <- (Rinv_inv (a + _)), E, Rinv_inv. reflexivity. }
  assert (E2 : hn_gsp g / (2 * l2) = hn_gsp g / (2 * l1)) by lra.
  apply N. unfold Rdiv in E2. apply Rmult_eq_reg_l in E2; [|lra].
  assert (2 * l2 = 2 * l1) by (rewrite <- (Rinv_inv (2 * l2)), E2, Rinv_inv; reflexivity). lra.
Qed.
(** The lower demand port: for every number of rows the index lies outside the array, and the
    conductance is whatever follows from the memory found there. *)
Theorem C90_outside_refuted : forall g io f Tx Tp, hn_ok g -> hn_range g Tx Tp ->
  (hn_n g * 2 <= hexn_own (hn_n g) 3)%nat /\
  exists junk junk', (forall k, 0 < junk k /\ 0 < junk' k) /\
  hr_uap (hexn_diff g junk io f Tx Tp) 3%nat <> hr_uap (hexn_diff g junk' io f Tx Tp) 3%nat.
Proof.
  intros g io f Tx Tp G [_ WP].
  destruct G as (Hn & _ & _ & _ & Pg & _ & _ & _ & _ & _ & _ & _ & _ & _ & PP).
  destruct (PP 3%nat ltac:(lia)) as (P1 & P2 & _).
  pose proof (lambda_bounds _ (WP 3%nat ltac:(lia))) as L0.
  split; [cbn [hexn_own]; lia|]. set (l := 1). assert (Hl : 0 < l) by (unfold l; lra). clearbody l.
  exists (fun _ => l), (fun _ => 2 * l). split; [intros; lra|]. rewrite !uap_last by exact Hn.
  intro E. apply Rplus_eq_reg_r in E.
  set (a := hn_pgsp g 3%nat / (2 * lambda_water (Tp 3%nat))) in *.
  assert (0 < a) by (apply Rdiv_lt_0_compat; lra).
  assert (A1 : hn_gsp g / (2 * (2 * l)) = hn_gsp g / (2 * l) / 2) by (field; lra).
  rewrite A1 in E. set (b := hn_gsp g / (2 * l)) in *.
  assert (0 < b) by (apply Rdiv_lt_0_compat; lra).
  unfold Rdiv at 1 2 in E. apply Rmult_eq_reg_l in E; [|lra].
  assert (a + b = a + b / 2) by (rewrite <- (Rinv_inv (a + b)), E, Rinv_inv; reflexivity). lra.
Qed.
Lemma lam_60_40 : lambda_water 60 <> lambda_water 40.
Proof. unfold lambda_water. lra. Qed.
Example C90_example : let g := hexn_of 2 1 (2, 1)%nat (1/2) (1/10) (1/50) 0 (1/500) (1/2000) 15 (1/5) 500
     (1/1000000) (fun _ => 5/10000) (fun _ => 1/2) (fun _ => 1/2) (fun _ => 0) in
  let Tx : grid := fun _ c => match c with 1%nat => 60 | 2%nat => 50 | _ => 40 end in
  hn_ok g /\ hn_range g Tx (fun _ => 50) /\ lambda_water (Tx 1%nat 3%nat) <> lambda_water (Tx 2%nat 1%nat).
Proof.
  intros g Tx. pose proof area_v as A. split; [|split].
  - unfold hn_ok, g, hexn_of.
    cbn [hn_n hn_div fst snd hn_Ach hn_gsp hn_dh hn_s hn_corr hn_A hn_V hn_lamw hn_mcpw hn_uaw hn_x hn_pA hn_pgsp hn_psub hn_pw].
    change (INR 2) with (1 + 1). change (INR 1) with 1.
    repeat (split; [lia || lra|]). split; [intros i _|intros; lra].
    pose proof (pos_INR i). lra.
  - split; [|intros; lra]. intros i c _ Hc. destruct c as [|[|[|c]]]; cbn [Tx]; try lra; lia.
  - cbn [Tx]. intro E. apply lam_60_40. symmetry. exact E.
Qed.
Print Assumptions C90_ports_partial.
Print Assumptions C90_wrong_cell_refuted.
Print Assumptions C90_outside_refuted.

(** ** C91: an accepted step does not overshoot *)
(** What the check guarantees: the flow never empties a cell more than once per step (with the
    largest density), and the heat crossing a plate in a step is bounded by the plate area times
    the length of a cell, not by the volume of the water of the cell. *)
Theorem C91_check_partial : forall g junk io f Tx Tp dt, hn_ok g -> hn_range g Tx Tp -> 0 < dt ->
  let r := hexn_diff g junk io f Tx Tp in
  hexn_vn_div g io r dt <= 1 ->
  (forall s, (s < 2)%nat -> Rabs (io s) / INR (hn_div g s) * dt <= hn_V g * 1000) /\
  (forall i c, (i < hn_n g)%nat -> (c < 4)%nat ->
     hr_ua2 r i c * dt <= 0.5 * (1000 * 4225) * (hn_A g * hn_gsp g)).
Proof.
  intros g junk io f Tx Tp dt G W D r H. split; intros.
  - exact (check_flow g _ io _ Tx Tp dt G W D H s H0).
  - exact (check_diff g _ io _ Tx Tp dt G W D H i c H0 H1).
Qed.
(** A step accepted by the check: still water at 60 degrees next to a plate at 40 degrees is
    cooled to -2440 degrees by one explicit step. *)
Theorem C91_overshoot_refuted : forall junk, (forall k, 0 <= junk k) ->
  let r := hexn_diff gv junk iov hflows0 Txv Tpv in
  hn_ok gv /\ hn_range gv Txv Tpv /\
  exists dt, 0 < dt /\ hexn_vn_div gv iov r dt <= 1 /\
    Txv 1%nat 1%nat = 60 /\ Txv 1%nat 2%nat = 40 /\
    Txv 1%nat 1%nat + dt * hr_tot r 0%nat 0%nat = - 2440.
Proof.
  intros junk H r. split; [exact gv_ok|]. split; [exact gv_range|].
  destruct (overshoot junk H) as (dt & A & B & C). exists dt.
  split; [exact A|]. split; [exact B|]. split; [reflexivity|]. split; [reflexivity|exact C].
Qed.
Example C91_example : exists dt, 0 < dt /\
  hexn_vn_div gv iov (hexn_diff gv (fun _ => 6/10) iov hflows0 Txv Tpv) dt <= 1.
Proof.
  destruct (overshoot (fun _ => 6/10) ltac:(intros; lra)) as (dt & A & B & _). now exists dt.
Qed.
Print Assumptions C91_check_partial.
Print Assumptions C91_overshoot_refuted.
