(** C165: geometry of plate heat exchangers. *)
From Coq Require Import Reals Lra Bool.
From Verif Require Import MPlateGeo.
Open Scope R_scope.

(** ** Specification *)

(** A rectangle with rounded corners: an upright and a lying bar and four quarter discs. *)
Definition rounded_area (l w r : R) : R := (l - 2 * r) * w + 2 * (r * (w - 2 * r)) + 4 * (PI * r ^ 2 / 4).
Definition rounded_rim (l w r : R) : R := 2 * (l - 2 * r) + 2 * (w - 2 * r) + 4 * (2 * PI * r / 4).
Definition disc (d : R) : R := PI * (d / 2) ^ 2.

(** Corners and ports fit on the plate. *)
Definition fits (l w d r : R) : Prop := 2 * r <= l /\ 2 * r <= w /\ 4 * disc d < rounded_area l w r.

Lemma pos_iff : forall x, pos x = true <-> exists v, x = Some v /\ 0 < v.
Proof.
  intros [x|]; cbn; split; intros H; try discriminate.
  - destruct (Rlt_dec 0 x); [eauto|discriminate].
  - destruct H as (v & E & P). injection E as ->. destruct (Rlt_dec 0 v); [reflexivity|contradiction].
  - destruct H as (v & E & _). discriminate.
Qed.
Lemma pos_some : forall x, pos (Some x) = true <-> 0 < x.
Proof.
  intros x. rewrite pos_iff. split; [intros (v & E & P); injection E as ->; exact P|eauto].
Qed.

(** What acceptance means. *)
Lemma accepted : forall e a q, geometry e a = Some q ->
  exists l w d r z s t v m,
    a_length a = Some l /\ a_width a = Some w /\ a_port a = Some d /\ a_corner a = Some r /\
    0 < l /\ 0 < w /\ 0 < d /\ 0 <= r /\
    let A := match a_plate a with Some A => A | None => plate_area l w d r end in
    total_depth a (e_plates e) = Some z /\ channels a (e_rho e) l w d r A = Some (s, t, v) /\
    mass (e_num e) a (e_plates e) = Some m /\
    q = mkGeom A z s t (match a_area a with Some x => x | None => s * w end) v m (v / e_gp e)
          (plate_area l w 0 r * 2 + rim l w r * z)
          (plate_area (l + 2 * e_ins e) (w + 2 * e_ins e) 0 r * 2
           + rim (l + 2 * e_ins e) (w + 2 * e_ins e) r * (z + 2 * e_ins e))
          (A * t) (A * t / e_gp e).
Proof.
  intros e a q H. unfold geometry in H.
  destruct (pos (a_length a)) eqn:PL; [|discriminate].
  destruct (pos (a_width a)) eqn:PW; [|discriminate].
  destruct (pos (a_port a)) eqn:PP; [|discriminate].
  apply pos_iff in PL, PW, PP. destruct PL as (l & EL & PL), PW as (w & EW & PW), PP as (d & ED & PD).
  cbn [andb negb] in H. destruct (pos_if (a_area a)); [|discriminate]. cbn [negb] in H.
  rewrite EL, EW, ED in H. cbn [val] in H. destruct (a_corner a) as [r|] eqn:ER; [|discriminate].
  destruct (Rle_dec 0 r) as [RP|]; [|discriminate].
  set (A := match a_plate a with Some A => A | None => plate_area l w d r end) in *.
  destruct (total_depth a (e_plates e)) as [z|] eqn:EZ; [|discriminate].
  destruct (channels a (e_rho e) l w d r A) as [[[s t] v]|] eqn:EC; [|discriminate].
  destruct (mass (e_num e) a (e_plates e)) as [m|] eqn:EM; [|discriminate].
  exists l, w, d, r, z, s, t, v, m. injection H as <-. repeat split; assumption.
Qed.

(** ** Theorems *)

(** The area of a plate is that of a rectangle with rounded corners without its four ports. *)
Theorem C165_plate : forall e a q l w d r, geometry e a = Some q -> a_plate a = None ->
  a_length a = Some l -> a_width a = Some w -> a_port a = Some d -> a_corner a = Some r ->
  q_plate q = rounded_area l w r - 4 * disc d.
Proof.
  intros e a q l w d r H P L W D C. destruct (accepted _ _ _ H)
    as (l' & w' & d' & r' & z & s & t & v & m & L' & W' & D' & C' & _ & _ & _ & _ & _ & _ & _ & ->).
  cbn [q_plate]. rewrite P. rewrite L in L'. rewrite W in W'. rewrite D in D'. rewrite C in C'.
  injection L' as <-. injection W' as <-. injection D' as <-. injection C' as <-.
  unfold plate_area, rounded_area, disc. field.
Qed.

(** Described by the mass of a plate: the plate and its rim have this mass. *)
Theorem C165_mass : forall e a q l w r m, geometry e a = Some q -> a_channel a = None -> a_thick a = None ->
  a_length a = Some l -> a_width a = Some w -> a_corner a = Some r -> a_mass_plate a = Some m ->
  (q_plate q + val (a_per_plate a) * rounded_rim l w r) * e_rho e <> 0 ->
  (q_plate q + val (a_per_plate a) * rounded_rim l w r) * q_thick q * e_rho e = m.
Proof.
  intros e a q l w r m H CW TH L W C M NZ. destruct (accepted _ _ _ H)
    as (l' & w' & d & r' & z & s & t & v & m' & L' & W' & D' & C' & _ & _ & _ & _ & _ & CH & _ & ->).
  cbn [q_plate q_thick] in *. rewrite L in L'. rewrite W in W'. rewrite C in C'.
  injection L' as <-. injection W' as <-. injection C' as <-.
  set (A := match a_plate a with Some A => A | None => plate_area l w d r end) in *. clearbody A.
  unfold channels in CH. rewrite CW, M, TH in CH.
  destruct (negb (pos (a_per_plate a) && pos (Some m))); [discriminate|].
  injection CH as <- <- <-. unfold thickness.
  replace (rim l w r) with (rounded_rim l w r) by (unfold rim, rounded_rim; field).
  field. split; intros Z; apply NZ; rewrite Z; ring.
Qed.

(** A plate and a channel take the depth per plate, unless channel width and plate thickness are both given (or
    channel volume and plate thickness). *)
Theorem C165_depth : forall e a q p, geometry e a = Some q -> a_per_plate a = Some p ->
  a_thick a = None \/ a_channel a = None /\ a_mass_plate a <> None ->
  q_channel q + q_thick q = p.
Proof.
  intros e a q p H P T. destruct (accepted _ _ _ H)
    as (l & w & d & r & z & s & t & v & m & _ & _ & _ & _ & _ & _ & _ & _ & _ & CH & _ & ->).
  cbn [q_channel q_thick]. unfold channels, by_depth in CH. rewrite P in CH. cbn [val] in CH.
  destruct (a_channel a) as [c|] eqn:EC.
  - destruct T as [T|[T _]]; [|discriminate]. rewrite T in CH.
    destruct (negb (pos (Some c))); [discriminate|].
    destruct (pos (Some p)); [|discriminate].
    destruct (a_volume a) as [u|]; [destruct (pos (Some u)); [|discriminate]|]; injection CH as <- <- <-; ring.
  - destruct (a_mass_plate a) as [mm|] eqn:EM.
    + destruct (negb (pos (Some p) && pos (Some mm))); [discriminate|].
      destruct (a_thick a) as [th|].
      * destruct (pos (Some th)); [|discriminate]. injection CH as <- <- <-. ring.
      * injection CH as <- <- <-. ring.
    + destruct T as [T|[_ T]]; [|contradiction]. rewrite T in CH.
      destruct (a_volume a) as [u|]; [|discriminate].
      destruct (negb (pos (Some u))); [discriminate|].
      destruct (pos (Some p)); [|discriminate]. injection CH as <- <- <-. ring.
Qed.

(** What is given is used: plate thickness, channel width, cross section, and the channel volume. *)
Theorem C165_given : forall e a q, geometry e a = Some q ->
  (forall t, a_thick a = Some t -> q_thick q = t) /\ (forall s, a_channel a = Some s -> q_channel q = s) /\
  (forall x, a_area a = Some x -> q_area q = x) /\ (forall v, a_volume a = Some v -> q_volume q = v) /\
  (forall x, a_plate a = Some x -> q_plate q = x).
Proof.
  intros e a q H. destruct (accepted _ _ _ H)
    as (l & w & d & r & z & s & t & v & m & _ & _ & _ & _ & _ & _ & _ & _ & _ & CH & _ & ->).
  cbn [q_channel q_thick q_area q_volume q_plate].
  split; [|split; [|split; [|split]]]; intros x X; try rewrite X in *; try reflexivity;
    unfold channels, by_depth in CH; rewrite X in CH.
  - destruct (a_channel a) as [c|]; [|destruct (a_mass_plate a) as [mm|]].
    + destruct (negb (pos (Some c))); [discriminate|]. destruct (pos (Some x)); [|discriminate].
      destruct (a_volume a) as [u|]; [destruct (pos (Some u)); [|discriminate]|]; injection CH as <- <- <-; reflexivity.
    + destruct (negb _); [discriminate|]. destruct (pos (Some x)); [|discriminate]. injection CH as <- <- <-. reflexivity.
    + destruct (a_volume a) as [u|]; [|discriminate]. destruct (negb _); [discriminate|].
      destruct (pos (Some x)); [|discriminate]. injection CH as <- <- <-. reflexivity.
  - destruct (negb (pos (Some x))); [discriminate|].
    destruct (match a_thick a with Some t => _ | None => _ end); [|discriminate].
    destruct (a_volume a) as [u|]; [destruct (pos (Some u)); [|discriminate]|]; injection CH as <- <- <-; reflexivity.
  - destruct (a_channel a) as [c|]; [|destruct (a_mass_plate a) as [mm|]].
    + destruct (negb (pos (Some c))); [discriminate|].
      destruct (match a_thick a with Some t => _ | None => _ end); [|discriminate].
      destruct (pos (Some x)); [|discriminate]. injection CH as <- <- <-. reflexivity.
    + destruct (negb _); [discriminate|].
      destruct (match a_thick a with Some t => _ | None => _ end); [|discriminate]. injection CH as <- <- <-. reflexivity.
    + destruct (negb _); [discriminate|].
      destruct (match a_thick a with Some t => _ | None => _ end); [|discriminate]. injection CH as <- <- <-. reflexivity.
Qed.
Print Assumptions C165_given.

(** The cells make up the channels and the plates. *)
Theorem C165_cells : forall e a q, geometry e a = Some q -> e_gp e <> 0 ->
  e_gp e * q_cell q = q_volume q /\ e_gp e * q_vcell q = q_vplate q /\ q_vplate q = q_plate q * q_thick q.
Proof.
  intros e a q H G. destruct (accepted _ _ _ H)
    as (l & w & d & r & z & s & t & v & m & _ & _ & _ & _ & _ & _ & _ & _ & _ & _ & _ & ->).
  cbn [q_cell q_volume q_vcell q_vplate q_plate q_thick].
  split; [field; exact G|]. split; [field; exact G|reflexivity].
Qed.

(** The bare surface is front, back and rim; insulation never makes it smaller, and only none leaves it. *)
Theorem C165_surface : forall e a q l w d r, geometry e a = Some q ->
  a_length a = Some l -> a_width a = Some w -> a_port a = Some d -> a_corner a = Some r -> fits l w d r ->
  0 < q_depth q ->
  q_out q = 2 * rounded_area l w r + rounded_rim l w r * q_depth q /\ 0 < q_out q /\
  (e_ins e = 0 -> q_out_ins q = q_out q) /\ (0 < e_ins e -> q_out q < q_out_ins q).
Proof.
  intros e a q l w d r H L W D C (F1 & F2 & F3) Z. destruct (accepted _ _ _ H)
    as (l' & w' & d' & r' & z & s & t & v & m & L' & W' & D' & C' & LP & WP & DP & RP & _ & _ & _ & ->).
  rewrite L in L'. rewrite W in W'. rewrite D in D'. rewrite C in C'.
  injection L' as <-. injection W' as <-. injection D' as <-. injection C' as <-.
  cbn [q_depth q_out q_out_ins] in *. pose proof PI_RGT_0 as P.
  assert (A0 : forall l w, plate_area l w 0 r = rounded_area l w r)
    by (intros; unfold plate_area, rounded_area; field).
  assert (R0 : forall l w, rim l w r = rounded_rim l w r) by (intros; unfold rim, rounded_rim; field).
  rewrite !A0, !R0.
  assert (DD : 0 < disc d) by (unfold disc; apply Rmult_lt_0_compat; [exact P|apply pow_lt; lra]).
  assert (RR : 0 <= rounded_rim l w r).
  { unfold rounded_rim. pose proof (Rmult_le_pos _ _ (Rlt_le _ _ P) RP). lra. }
  pose proof (Rmult_le_pos _ _ RR (Rlt_le _ _ Z)) as RZ.
  split; [ring|]. split; [lra|]. split.
  - intros ->. rewrite !Rmult_0_r, !Rplus_0_r. ring.
  - intros I. set (i := e_ins e) in *. clearbody i.
    assert (E1 : rounded_area (l + 2 * i) (w + 2 * i) r = rounded_area l w r + 2 * i * (l + w) + 4 * i ^ 2)
      by (unfold rounded_area; ring).
    assert (E2 : rounded_rim (l + 2 * i) (w + 2 * i) r = rounded_rim l w r + 8 * i)
      by (unfold rounded_rim; ring).
    rewrite E1, E2.
    assert (0 < i * (l + w)) by (apply Rmult_lt_0_compat; lra).
    assert (0 < i ^ 2) by (apply pow_lt; exact I).
    assert (0 <= rounded_rim l w r * i) by (apply Rmult_le_pos; lra).
    assert (0 < i * z) by (apply Rmult_lt_0_compat; lra).
    nra.
Qed.

(** If corners and ports fit on the plate and a channel leaves room for the plate everything is positive. *)
Theorem C165_physical_partial : forall e a q l w d r, geometry e a = Some q -> a_plate a = None ->
  a_length a = Some l -> a_width a = Some w -> a_port a = Some d -> a_corner a = Some r -> fits l w d r ->
  0 < q_channel q -> 0 < q_thick q -> a_volume a = None ->
  0 < q_plate q /\ 0 < q_area q /\ 0 < q_volume q /\ 0 < q_vplate q.
Proof.
  intros e a q l w d r H P L W D C F S T V.
  pose proof (C165_plate e a q l w d r H P L W D C) as QP. destruct F as (F1 & F2 & F3).
  assert (AP : 0 < q_plate q) by lra.
  destruct (accepted _ _ _ H)
    as (l' & w' & d' & r' & z & s & t & v & m & L' & W' & D' & C' & LP & WP & DP & RP & _ & CH & _ & EQ).
  rewrite L in L'. rewrite W in W'. rewrite D in D'. rewrite C in C'.
  injection L' as <-. injection W' as <-. injection D' as <-. injection C' as <-.
  unfold geometry in H. destruct (pos_if (a_area a)) eqn:PA;
    [|rewrite !andb_false_r in H; discriminate].
  rewrite P in CH, EQ. subst q. cbn [q_plate q_area q_volume q_vplate q_channel q_thick] in *.
  split; [exact AP|]. split; [|split].
  - destruct (a_area a) as [x|]; [apply pos_some; exact PA|apply Rmult_lt_0_compat; assumption].
  - unfold channels in CH. rewrite V in CH.
    destruct (a_channel a) as [c|].
    + destruct (negb (pos (Some c))); [discriminate|].
      destruct (by_depth a c); [|discriminate]. injection CH as <- <- <-.
      apply Rmult_lt_0_compat; assumption.
    + destruct (a_mass_plate a) as [mm|]; [|discriminate].
      destruct (negb (pos (a_per_plate a) && pos (Some mm))); [discriminate|].
      destruct (match a_thick a with None => _ | Some _ => _ end); [|discriminate].
      injection CH as <- <- <-. apply Rmult_lt_0_compat; [|exact S].
      pose proof PI_RGT_0. unfold plate_area in AP |- *.
      assert (0 < d ^ 2 * PI) by (apply Rmult_lt_0_compat; [apply pow_lt; exact DP|assumption]). lra.
  - apply Rmult_lt_0_compat; assumption.
Qed.

(** Nothing makes sure of that: whenever the channel is at least as wide as the depth per plate the exchanger is
    accepted with plates of no or negative thickness ... *)
Theorem C165_thickness_refuted : forall e a q p c, geometry e a = Some q ->
  a_channel a = Some c -> a_per_plate a = Some p -> a_thick a = None -> p <= c -> q_thick q <= 0.
Proof.
  intros e a q p c H C P T LE.
  pose proof (C165_depth e a q p H P (or_introl T)) as E.
  destruct (accepted _ _ _ H)
    as (l & w & d & r & z & s & t & v & m & _ & _ & _ & _ & _ & _ & _ & _ & _ & CH & _ & ->).
  cbn [q_channel q_thick] in *. unfold channels in CH. rewrite C in CH.
  destruct (negb (pos (Some c))); [discriminate|]. destruct (by_depth a c); [|discriminate].
  destruct (a_volume a) as [u|]; [destruct (pos (Some u)); [|discriminate]|]; injection CH as <- <- <-; lra.
Qed.
Definition ex_args (c p d r : R) : args :=
  mkArgs (Some (1/2)) (Some (1/5)) (Some d) (Some r) None None (Some (1/10)) None (Some p) (Some c) None None
    (Some (3/10)) None (Some 20).
Definition ex_env : env := mkEnv true 20 10 7900 (1/20).
Lemma pos_t : forall x, 0 < x -> pos (Some x) = true.
Proof. intros x P. apply pos_some. exact P. Qed.
Lemma ex_accepted : forall c p d r, 0 < c -> 0 < p -> 0 < d -> 0 <= r -> exists q,
  geometry ex_env (ex_args c p d r) = Some q /\ q_channel q = c /\ q_thick q = p - c /\
  q_plate q = plate_area (1/2) (1/5) d r /\ q_volume q = c * q_plate q /\ q_depth q = 1 / 10.
Proof.
  intros c p d r C P D RR. unfold geometry, ex_args, total_depth, channels, by_depth, mass.
  cbn [a_length a_width a_port a_corner a_area a_plate a_depth a_depth_base a_per_plate a_channel a_thick
       a_volume a_mass_plate a_mass_base a_mass_total val pos_if].
  rewrite !pos_t by lra. cbn [andb orb negb]. destruct (Rle_dec 0 r); [|contradiction].
  eexists. split; [reflexivity|]. cbn. repeat split; reflexivity.
Qed.
Example C165_ex : exists q, geometry ex_env (ex_args (2/1000) (24/10000) (3/100) (2/100)) = Some q /\
  fits (1/2) (1/5) (3/100) (2/100) /\ 0 < q_channel q /\ 0 < q_thick q /\ 0 < q_depth q.
Proof.
  destruct (ex_accepted (2/1000) (24/10000) (3/100) (2/100)) as (q & E & A & B & _ & _ & Z); try lra.
  exists q. split; [exact E|]. rewrite A, B, Z. split; [|lra].
  unfold fits, disc, rounded_area. pose proof PI_4. pose proof PI_RGT_0. repeat split; nra.
Qed.
(** ... and with ports or corners that do not fit on the plate its area is negative. *)
Theorem C165_area_refuted : exists e a q, geometry e a = Some q /\ q_plate q < 0 /\ q_volume q < 0.
Proof.
  destruct (ex_accepted (2/1000) (24/10000) (1/4) (2/100)) as (q & E & A & B & C & V & _); try lra.
  exists ex_env, (ex_args (2/1000) (24/10000) (1/4) (2/100)), q. split; [exact E|].
  assert (N : q_plate q < 0).
  { rewrite C. unfold plate_area. pose proof PI_4. pose proof (PI2_1). pose proof PI_RGT_0.
    assert (2 < PI) by (unfold PI in *; lra). nra. }
  split; [exact N|]. rewrite V. nra.
Qed.

(** The three descriptions disagree.  The channel volume that follows from the channel width leaves out four ports,
    the one that follows from the mass two, and the channel width that follows from the volume none: *)
Theorem C165_volume_refuted : forall e a q, geometry e a = Some q -> a_volume a = None -> a_plate a = None ->
  forall l w d r, a_length a = Some l -> a_width a = Some w -> a_port a = Some d -> a_corner a = Some r ->
  q_volume q = q_channel q * (rounded_area l w r - (match a_channel a with Some _ => 4 | None => 2 end) * disc d).
Proof.
  intros e a q H V P l w d r L W D C. destruct (accepted _ _ _ H)
    as (l' & w' & d' & r' & z & s & t & v & m & L' & W' & D' & C' & LP & WP & DP & RP & _ & CH & _ & ->).
  rewrite L in L'. rewrite W in W'. rewrite D in D'. rewrite C in C'.
  injection L' as <-. injection W' as <-. injection D' as <-. injection C' as <-.
  cbn [q_volume q_channel]. rewrite P in CH. unfold channels in CH. rewrite V in CH.
  destruct (a_channel a) as [c|].
  - destruct (negb (pos (Some c))); [discriminate|]. destruct (by_depth a c); [|discriminate].
    injection CH as <- <- <-. unfold plate_area, rounded_area, disc. field.
  - destruct (a_mass_plate a) as [mm|]; [|discriminate].
    destruct (negb (pos (a_per_plate a) && pos (Some mm))); [discriminate|].
    destruct (match a_thick a with None => _ | Some _ => _ end); [|discriminate].
    injection CH as <- <- <-. unfold plate_area, rounded_area, disc. field.
Qed.
(** ... so describing an exchanger by the channel volume of the same exchanger described by its channel width always
    gives narrower channels, by the share of the ports in the plate. *)
Theorem C165_width_refuted : forall e a q e' b q' l w d r, fits l w d r ->
  geometry e a = Some q -> a_plate a = None -> a_volume a = None -> a_channel a <> None ->
  a_length a = Some l -> a_width a = Some w -> a_port a = Some d -> a_corner a = Some r ->
  geometry e' b = Some q' -> a_channel b = None -> a_mass_plate b = None -> a_volume b = Some (q_volume q) ->
  a_length b = Some l -> a_width b = Some w -> a_corner b = Some r ->
  q_channel q' = q_channel q * (1 - 4 * disc d / rounded_area l w r) /\ q_channel q' < q_channel q.
Proof.
  intros e a q e' b q' l w d r (F1 & F2 & F3) HA PA VA CA LA WA DA RA HB CB MB VB LB WB RB.
  pose proof (C165_volume_refuted e a q HA VA PA l w d r LA WA DA RA) as EV.
  destruct (accepted _ _ _ HA)
    as (l1 & w1 & d1 & r1 & z & s & t & v & m & _ & _ & D' & _ & _ & _ & DP & _ & _ & CH & _ & EQ).
  rewrite DA in D'. injection D' as <-.
  assert (SP : 0 < q_channel q).
  { rewrite EQ. cbn [q_channel]. unfold channels in CH. destruct (a_channel a) as [c|]; [|contradiction].
    destruct (pos (Some c)) eqn:PC; [|discriminate]. apply pos_some in PC. cbn [negb] in CH.
    destruct (by_depth a c); [|discriminate]. rewrite VA in CH. injection CH as <- _ _. exact PC. }
  clear CH EQ. destruct (a_channel a) as [c|]; [|contradiction].
  destruct (accepted _ _ _ HB)
    as (l2 & w2 & d2 & r2 & z2 & s2 & t2 & v2 & m2 & L2 & W2 & _ & R2 & _ & _ & _ & _ & _ & CH & _ & ->).
  rewrite LB in L2. rewrite WB in W2. rewrite RB in R2.
  injection L2 as <-. injection W2 as <-. injection R2 as <-.
  cbn [q_channel]. unfold channels in CH. rewrite CB, MB, VB in CH.
  destruct (negb (pos (Some _))); [discriminate|]. destruct (by_depth b _); [|discriminate].
  injection CH as <- _ _.
  assert (DD : 0 < disc d).
  { unfold disc. apply Rmult_lt_0_compat; [exact PI_RGT_0|apply pow_lt; lra]. }
  assert (E0 : plate_area l w 0 r = rounded_area l w r) by (unfold plate_area, rounded_area; field).
  rewrite E0, EV. set (X := rounded_area l w r) in *. clearbody X. set (c' := q_channel q) in *. clearbody c'.
  split; [field; lra|].
  replace (c' * (X - 4 * disc d) / X) with (c' - c' * (4 * disc d / X)) by (field; lra).
  assert (0 < 4 * disc d / X) by (apply Rdiv_lt_0_compat; lra).
  assert (0 < c' * (4 * disc d / X)) by (apply Rmult_lt_0_compat; assumption). lra.
Qed.
(** Such a pair of descriptions: the second one for the other heat exchanger, as the numeric one refuses it. *)
Definition ex_volume (v : R) : args :=
  mkArgs (Some (1/2)) (Some (1/5)) (Some (3/100)) (Some (2/100)) None None (Some (1/10)) None (Some (24/10000)) None
    None (Some v) None None (Some 20).
Example C165_width_ex : exists q q', geometry ex_env (ex_args (2/1000) (24/10000) (3/100) (2/100)) = Some q /\
  fits (1/2) (1/5) (3/100) (2/100) /\ 0 < q_volume q /\
  geometry (mkEnv false 20 10 7900 (1/20)) (ex_volume (q_volume q)) = Some q'.
Proof.
  assert (F : fits (1/2) (1/5) (3/100) (2/100)).
  { unfold fits, disc, rounded_area. pose proof PI_4. pose proof PI_RGT_0. repeat split; nra. }
  destruct (ex_accepted (2/1000) (24/10000) (3/100) (2/100)) as (q & E & A & B & P & V & Z); try lra.
  assert (VP : 0 < q_volume q).
  { rewrite V, P. destruct F as (_ & _ & F). unfold disc, rounded_area in F. unfold plate_area. lra. }
  exists q. unfold geometry at 2, ex_volume, total_depth, channels, by_depth, mass.
  cbn [a_length a_width a_port a_corner a_area a_plate a_depth a_depth_base a_per_plate a_channel a_thick
       a_volume a_mass_plate a_mass_base a_mass_total val pos_if e_num e_plates e_gp e_rho e_ins].
  rewrite !pos_t by (exact VP || lra). cbn [andb orb negb]. destruct (Rle_dec 0 (2/100)); [|lra].
  eexists. split; [exact E|]. split; [exact F|]. split; [exact VP|reflexivity].
Qed.

(** The numeric heat exchanger asks for the mass of a plate in any case, but with this mass the volume is not used to
    find the channel width any more: it cannot be described by the channel volume. *)
Theorem C165_third_way_refuted : forall e a, e_num e = true -> a_channel a = None -> a_mass_plate a = None ->
  geometry e a = None.
Proof.
  intros e a N C M. destruct (geometry e a) as [q|] eqn:H; [|reflexivity]. exfalso.
  destruct (accepted _ _ _ H)
    as (l & w & d & r & z & s & t & v & m & _ & _ & _ & _ & _ & _ & _ & _ & _ & _ & MM & _).
  unfold mass in MM. rewrite N, M in MM. discriminate.
Qed.
(** The other one cannot be described by its channel width and masses of casing and plates. *)
Theorem C165_base_mass_refuted : forall e a, e_num e = false -> a_channel a <> None -> a_mass_base a <> None ->
  geometry e a = None.
Proof.
  intros e a N C B. destruct (geometry e a) as [q|] eqn:H; [|reflexivity]. exfalso.
  destruct (accepted _ _ _ H)
    as (l & w & d & r & z & s & t & v & m & _ & _ & _ & _ & _ & _ & _ & _ & _ & _ & MM & _).
  unfold mass in MM. rewrite N in MM. destruct (a_mass_base a); [|contradiction].
  destruct (a_channel a); [|contradiction]. destruct (a_mass_plate a); discriminate.
Qed.
(** Otherwise the mass is the given one, or that of the casing and all plates. *)
Theorem C165_total_mass : forall e a q, geometry e a = Some q ->
  match a_mass_base a with
  | Some b => exists m, a_mass_plate a = Some m /\ q_mass q = b + m * e_plates e
  | None => a_mass_total a = Some (q_mass q)
  end.
Proof.
  intros e a q H. destruct (accepted _ _ _ H)
    as (l & w & d & r & z & s & t & v & m & _ & _ & _ & _ & _ & _ & _ & _ & _ & _ & MM & ->).
  cbn [q_mass]. unfold mass in MM. destruct (e_num e), (a_mass_base a) as [b|], (a_mass_plate a) as [mp|];
    try discriminate; try exact MM.
  - injection MM as <-. exists mp. auto.
  - destruct (a_channel a); [discriminate|]. injection MM as <-. exists mp. auto.
Qed.
(** [depth_base] is not tested if [depth] is given, and it wins: *)
Theorem C165_base_refuted : exists e a q, a_depth a = Some (1/10) /\ geometry e a = Some q /\ q_depth q < 0 /\
  q_out q < 0.
Proof.
  exists ex_env, (mkArgs (Some (1/2)) (Some (1/5)) (Some (3/100)) (Some 0) None None (Some (1/10)) (Some (-1))
    (Some (24/10000)) (Some (2/1000)) None None (Some (3/10)) None (Some 20)).
  unfold geometry, total_depth, channels, by_depth, mass.
  cbn [a_length a_width a_port a_corner a_area a_plate a_depth a_depth_base a_per_plate a_channel a_thick
       a_volume a_mass_plate a_mass_base a_mass_total val pos_if e_num e_plates e_gp e_rho e_ins ex_env].
  rewrite (pos_t (1/2)), (pos_t (1/5)), (pos_t (3/100)), (pos_t (1/10)), (pos_t (24/10000)), (pos_t (2/1000)) by lra. cbn [andb orb negb]. destruct (Rle_dec 0 0); [|lra].
  eexists. split; [reflexivity|]. split; [reflexivity|]. cbn [q_depth q_out].
  unfold plate_area, rim. split; lra.
Qed.

Print Assumptions C165_plate.
Print Assumptions C165_mass.
Print Assumptions C165_depth.
Print Assumptions C165_cells.
Print Assumptions C165_surface.
Print Assumptions C165_physical_partial.
Print Assumptions C165_thickness_refuted.
Print Assumptions C165_area_refuted.
Print Assumptions C165_volume_refuted.
Print Assumptions C165_width_refuted.
Print Assumptions C165_third_way_refuted.
Print Assumptions C165_base_mass_refuted.
Print Assumptions C165_total_mass.
Print Assumptions C165_base_refuted.
