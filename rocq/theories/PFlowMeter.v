(** C159: a flow meter shows the flow through its cell. *)
From Coq Require Import Reals List Bool Arith ZArith Lia Lra.
From Verif Require Import MFlow MWater SFlow PFlow MFlowMeter.
Import ListNotations.
Open Scope R_scope.

(** The flow through a cell, counted downwards; in storages what crosses the lower border of the cell, in the last cell
    the upper border; in valves and connectors the flow into the port. *)
Definition flow_through (d : device) (c : nat) : R :=
  match d with
  | Pipe _ io => io
  | Vessel n np own io _ => rsum np (fun i => if (own i <=? Nat.min c (n - 2))%nat then io i else 0)
  | Exchanger _ sup dmd => match (c mod 3)%nat with 0%nat => sup | 1%nat => 0 | _ => dmd end
  | Valve io | Connector io => io c
  end.
(** Parts as they are built and balanced: ports in order, in- and outflows equal. *)
Definition built (d : device) : Prop :=
  match d with
  | Pipe n _ => (1 <= n)%nat
  | Vessel n np own io f => (2 <= n)%nat /\ (1 <= np)%nat /\
      (forall i, (S i < np)%nat -> (own i <= own (S i))%nat) /\ (forall i, (i < np)%nat -> (own i < n)%nat) /\
      rsum np io = 0
  | Exchanger gp _ _ => (1 <= gp)%nat
  | _ => True
  end.
Definition shown (d : device) (c : nat) : Prop := flow_meter d (Z.of_nat c) = Some (flow_through d c).

Lemma get_nat l c : py_get l (Z.of_nat c) = nth_error l c.
Proof. unfold py_get. destruct (Z.leb_spec 0 (Z.of_nat c)); [|lia]. now rewrite Nat2Z.id. Qed.
Lemma nth_map_seq (f : nat -> R) n c : (c < n)%nat -> nth_error (map f (seq 0 n)) c = Some (f c).
Proof.
  intros H. rewrite nth_error_map. rewrite (nth_error_nth' _ 0%nat); [|rewrite seq_length; exact H].
  cbn. now rewrite seq_nth.
Qed.
Lemma stored_any n np own io f : snd (process_flow_var n np own io f) = snd (process_flow_var n np own io flows0).
Proof. reflexivity. Qed.

(** Pipes, pumps, storages, branched pipes, valves and the supply side of heat exchangers. *)
Theorem C159_shown_partial : forall d c, built d -> (c < size d)%nat ->
  match d with Connector _ => False | Exchanger _ _ _ => (c mod 3 = 0)%nat | _ => True end -> shown d c.
Proof.
  intros d c B S K. unfold shown, flow_meter.
  destruct (Z.ltb_spec (Z.of_nat c) (Z.of_nat (size d))) as [_|H]; [|lia].
  destruct d as [n io|n np own io f|gp sup dmd|io|io]; cbn [dm_invariant recorded flow_through size] in *.
  - reflexivity.
  - destruct B as (B1&B2&B3&B4&B5). rewrite get_nat, nth_map_seq by exact S. f_equal. rewrite stored_any.
    assert (P : forall j, (Datatypes.S j < n)%nat ->
      snd (process_flow_var n np own io flows0) j = rsum np (fun i => if (own i <=? j)%nat then io i else 0)).
    { intros j Hj. apply (C09_multi_port n np own [] io ltac:(lia) B2 B3 B4 B5 j ltac:(lia)). exact Hj. }
    destruct (Nat.eq_dec c (n - 1)) as [->|Hc].
    + rewrite Nat.min_r by lia. rewrite <- P by lia. cbn [process_flow_var snd]. unfold put.
      rewrite Nat.eqb_refl. destruct (Nat.eqb_spec (n - 2) (n - 1)); [lia|reflexivity].
    + rewrite Nat.min_l by lia. apply P. lia.
  - rewrite K. reflexivity.
  - rewrite get_nat, nth_map_seq by exact S. reflexivity.
  - contradiction.
Qed.

(** On the demand side of a heat exchanger the flow of the supply side is shown, and in its wall as well. *)
Theorem C159_exchanger_refuted : forall gp sup dmd i, (i < gp)%nat ->
  let d := Exchanger gp sup dmd in
  flow_meter d (Z.of_nat (3 * i + 2)) = Some sup /\ flow_meter d (Z.of_nat (3 * i + 1)) = Some sup /\
  flow_through d (3 * i + 2) = dmd /\ flow_through d (3 * i + 1) = 0 /\
  (shown d (3 * i + 2) <-> sup = dmd).
Proof.
  intros gp sup dmd i H d.
  assert (A : forall k, (k < 3 * gp)%nat -> flow_meter d (Z.of_nat k) = Some sup).
  { intros k Hk. unfold flow_meter, d. cbn [size dm_invariant recorded].
    destruct (Z.ltb_spec (Z.of_nat k) (Z.of_nat (3 * gp))); [reflexivity|lia]. }
  assert (M2 : ((3 * i + 2) mod 3 = 2)%nat) by (rewrite Nat.add_comm, Nat.mul_comm, Nat.mod_add by lia; reflexivity).
  assert (M1 : ((3 * i + 1) mod 3 = 1)%nat) by (rewrite Nat.add_comm, Nat.mul_comm, Nat.mod_add by lia; reflexivity).
  assert (F : flow_through d (3 * i + 2) = dmd) by (cbn [flow_through d]; now rewrite M2).
  split; [apply A; lia|]. split; [apply A; lia|]. split; [exact F|].
  split; [cbn [flow_through d]; now rewrite M1|]. unfold shown. rewrite F, A by lia. split; congruence.
Qed.

(** The flows of a three-way connector are never recorded: a meter shows no flow, whatever flows. *)
Theorem C159_connector_refuted : forall io c, (c < 3)%nat ->
  flow_meter (Connector io) (Z.of_nat c) = Some 0 /\ (shown (Connector io) c <-> io c = 0).
Proof.
  intros io c H. assert (E : flow_meter (Connector io) (Z.of_nat c) = Some 0).
  { destruct c as [|[|[|c]]]; [reflexivity..|lia]. }
  split; [exact E|]. unfold shown. rewrite E. cbn [flow_through]. split; congruence.
Qed.

(** Cells beyond the last are refused. *)
Theorem C159_beyond : forall d c, (size d <= c)%nat -> flow_meter d (Z.of_nat c) = None.
Proof. intros d c H. unfold flow_meter. destruct (Z.ltb_spec (Z.of_nat c) (Z.of_nat (size d))); [lia|reflexivity]. Qed.
(** Cells before the first are not: they count from the end, or, in parts with one flow, always give a reading. *)
Theorem C159_negative_refuted : forall d, built d ->
  (dm_invariant d = true -> forall k, flow_meter d (Z.neg k) = flow_meter d 0) /\
  (dm_invariant d = false -> forall k, (1 <= k <= size d)%nat ->
     flow_meter d (- Z.of_nat k) = flow_meter d (Z.of_nat (size d - k))).
Proof.
  intros d B. split; intros I.
  - intros k. unfold flow_meter. rewrite I.
    destruct (Z.ltb_spec (Z.neg k) (Z.of_nat (size d))); [|lia].
    destruct (Z.ltb_spec 0 (Z.of_nat (size d))) as [_|H2]; [reflexivity|].
    destruct d; cbn in B, H2, I; try discriminate; lia.
  - intros k Hk. unfold flow_meter. rewrite I.
    destruct (Z.ltb_spec (- Z.of_nat k) (Z.of_nat (size d))); [|lia].
    destruct (Z.ltb_spec (Z.of_nat (size d - k)) (Z.of_nat (size d))); [|lia].
    rewrite get_nat. assert (L : length (recorded d) = size d).
    { destruct d; cbn in I |- *; try discriminate; try reflexivity. now rewrite map_length, seq_length. }
    unfold py_get. rewrite L. destruct (Z.leb_spec 0 (- Z.of_nat k)); [lia|].
    destruct (Z.leb_spec 0 (Z.of_nat (size d) + - Z.of_nat k)); [|lia]. f_equal. lia.
Qed.

(** Volume flow meters divide the flow by the density in the cell; they cannot be placed in a heat exchanger. *)
Theorem C159_volume : forall d T c, built d -> (c < size d)%nat -> length T = size d ->
  match d with Connector _ | Exchanger _ _ _ => False | _ => True end ->
  volume_meter d T (Z.of_nat c) = Some (flow_through d c / rho_water (nth c T 0)).
Proof.
  intros d T c B S L K. pose proof (C159_shown_partial d c B S) as H. unfold shown in H.
  assert (N : py_get T (Z.of_nat c) = Some (nth c T 0)) by (rewrite get_nat; apply nth_error_nth'; lia).
  unfold volume_meter. rewrite N.
  destruct d; try contradiction; rewrite H by exact I; reflexivity.
Qed.

(** A storage with ports in cells 0, 3, 3 and 5; a heat exchanger and a connector with different flows. *)
Definition ex_vessel : device := Vessel 6 4 (fun i => nth i [0;3;3;5]%nat 0%nat) (fun i => nth i [2;-3;2;-1] 0) flows0.
Example C159_example : built ex_vessel /\ flow_meter ex_vessel 1 = Some 2 /\ flow_meter ex_vessel 4 = Some 1 /\
  flow_meter (Exchanger 20 (3/10) (1/10)) 2 = Some (3/10) /\ flow_through (Exchanger 20 (3/10) (1/10)) 2 = 1/10 /\
  flow_meter (Connector (fun i => nth i [1; 2; -3] 0)) 2 = Some 0.
Proof.
  assert (B : built ex_vessel).
  { cbn [built ex_vessel]. split; [lia|]. split; [lia|]. split; [|split].
    - intros [|[|[|i]]] Hi; cbn; lia.
    - intros [|[|[|[|i]]]] Hi; cbn; lia.
    - cbn. lra. }
  split; [exact B|]. split; [|split; [|repeat split]].
  - rewrite (C159_shown_partial ex_vessel 1 B ltac:(cbn; lia) I). cbn. f_equal. lra.
  - rewrite (C159_shown_partial ex_vessel 4 B ltac:(cbn; lia) I). cbn. f_equal. lra.
Qed.

Print Assumptions C159_shown_partial.
Print Assumptions C159_exchanger_refuted.
Print Assumptions C159_connector_refuted.
Print Assumptions C159_beyond.
Print Assumptions C159_negative_refuted.
Print Assumptions C159_volume.
