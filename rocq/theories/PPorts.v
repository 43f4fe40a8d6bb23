(** Properties of adding and connecting ports: C38-C41, C71. *)
From Coq Require Import Reals List Arith ZArith String Bool Lia Lra Sorting Permutation.
From Verif Require Import MPorts LPorts.
Import ListNotations.
Open Scope R_scope.

(** * C38: port placement *)

(** Adding ports keeps the cells of the ports sorted and inside the grid, with one name per
    cell. *)
Theorem C38_sorted : forall g p new q, (0 < gp g)%nat ->
  List.length (names p) = List.length (cells p) -> List.length (labels p) = List.length (cells p) ->
  StronglySorted le (cells p) -> (forall c, In c (cells p) -> (c < gp g)%nat) ->
  add_ports g p new = Some q ->
  StronglySorted le (cells q) /\ (forall c, In c (cells q) -> (c < gp g)%nat) /\
  List.length (names q) = List.length (cells q).
Proof.
  intros g p new q P N L S F E.
  assert (W : wf g p) by (repeat split; auto; apply Forall_forall, F).
  destruct (add_ports_wf g new p q P W E) as (A & B & C & D). rewrite Forall_forall in D. auto.
Qed.

(** Every port is found by its name at the cell it was created with: old ports where they were,
    new ports at the cell of the position given. *)
Theorem C38_names : forall g p new q, (0 < gp g)%nat ->
  List.length (names p) = List.length (cells p) -> List.length (labels p) = List.length (cells p) ->
  StronglySorted le (cells p) -> (forall c, In c (cells p) -> (c < gp g)%nat) ->
  NoDup (names p ++ map fst new) -> add_ports g p new = Some q ->
  (forall k, In k (names p) -> cell_of q k = cell_of p k) /\
  (forall k pos, In (k, pos) new -> exists c, resolve g pos = Some c /\ cell_of q k = Some c).
Proof.
  intros g p new q P N L S F D E.
  assert (W : wf g p) by (repeat split; auto; apply Forall_forall, F).
  split.
  - intros k I. apply (add_ports_old g new p q k P W E). intros Q.
    apply in_split in I. destruct I as (l1 & l2 & I). rewrite I, <- app_assoc in D.
    cbn in D. apply NoDup_remove_2 in D. apply D, in_or_app. right. apply in_or_app. auto.
  - intros k pos I. destruct (add_ports_new g new p q k pos P W D E I) as [A [c B]].
    exists c. split; congruence.
Qed.

(** A position by volume lies in the cell chosen, up to the tolerance of 1e-9 m^3 of the code at
    the lower boundary; every volume inside the part is accepted. *)
Theorem C38_volume : forall g v, (0 < gp g)%nat -> 0 < vcell g ->
  (0 <= v <= vcell g * INR (gp g) <-> exists c, resolve g (ByVolume v) = Some c) /\
  (forall c, resolve g (ByVolume v) = Some c -> (c < gp g)%nat /\
     INR c * vcell g - 1 / 1000000000 <= v <= INR (S c) * vcell g).
Proof.
  intros g v P VP. split.
  - unfold resolve. destruct (Rle_dec 0 v); [|split; [lra|intros [c E]; discriminate]].
    destruct (Rle_dec v _); [split; [eauto|lra]|split; [lra|intros [c E]; discriminate]].
  - intros c E. split; [apply (resolve_range g _ c P E)|]. rewrite S_INR.
    apply resolve_volume; assumption.
Qed.

(** A position by distance lies in the cell chosen, up to 1e-9 cells at the upper boundary. *)
Theorem C38_distance : forall g d, (0 < gp g)%nat -> 0 < len g ->
  (0 <= d <= len g <-> exists c, resolve g (ByDistance d) = Some c) /\
  (forall c, resolve g (ByDistance d) = Some c -> (c < gp g)%nat /\
     INR c * (len g / INR (gp g)) <= d <= (INR (S c) + 1 / 1000000000) * (len g / INR (gp g))).
Proof.
  intros g d P LP. split.
  - unfold resolve. destruct (Rle_dec 0 d); [|split; [lra|intros [c E]; discriminate]].
    destruct (Rle_dec d _); [split; [eauto|lra]|split; [lra|intros [c E]; discriminate]].
  - intros c E. split; [apply (resolve_range g _ c P E)|]. rewrite S_INR.
    apply resolve_distance; assumption.
Qed.

(** A position by index is that cell, -1 the last one. *)
Theorem C38_index : forall g i c, (0 < gp g)%nat -> resolve g (ByIndex i) = Some c ->
  (0 <= i /\ Z.of_nat c = i)%Z \/ (i = -1 /\ Z.of_nat c = Z.of_nat (gp g) - 1)%Z.
Proof.
  intros g i c P E. unfold resolve in E.
  destruct (Z.leb_spec (-1) i); [|discriminate].
  destruct (Z.leb_spec i (Z.of_nat (gp g) - 1)); [|discriminate].
  cbn [andb] in E. injection E as <-. unfold clip. destruct (Z.eqb_spec i (-1)).
  - right. split; [assumption|]. destruct (Z.leb_spec (Z.of_nat (gp g)) (Z.of_nat (gp g) - 1)); [lia|].
    destruct (Z.ltb_spec (Z.of_nat (gp g) - 1) 0); lia.
  - left. split; [lia|]. destruct (Z.leb_spec (Z.of_nat (gp g)) i); [lia|].
    destruct (Z.ltb_spec i 0); lia.
Qed.

(** Names are not checked: a new port named like an existing one is accepted and hides it.  A
    part with ports in (cell 0) and out (last cell) of ten cells gets a second port "out". *)
Definition g10 : grid := {| gp := 10; vcell := 1 / 100; len := 2 |}.
Definition tank : ports :=
  {| cells := [0%nat; 9%nat]; names := ["in"; "out"]%string; labels := [true; true] |}.
Theorem C38_duplicate_refuted : exists q,
  add_ports g10 tank [("out"%string, ByIndex 4)] = Some q /\
  cell_of tank "out" = Some 9%nat /\ cell_of q "out" = Some 4%nat.
Proof. eexists. split; [reflexivity|]. split; reflexivity. Qed.

(** * C39: flow labels *)

(** All parts which can take new ports label their ports 'in' before (pipe_branched.py 58,
    pipe_with_valve.py 58, tes.py 267); then every port keeps its label. *)
Theorem C39_labels : forall g p new q, (0 < gp g)%nat ->
  List.length (names p) = List.length (cells p) -> List.length (labels p) = List.length (cells p) ->
  StronglySorted le (cells p) -> (forall c, In c (cells p) -> (c < gp g)%nat) ->
  (forall b, In b (labels p) -> b = true) -> add_ports g p new = Some q ->
  (forall k, In k (names p) -> label_of q k = label_of p k) /\
  (forall k, In k (names q) -> label_of q k = Some true).
Proof.
  intros g p new q P N L S F T E.
  assert (W : wf g p) by (repeat split; auto; apply Forall_forall, F).
  destruct (add_ports_wf g new p q P W E) as (A & B & _).
  assert (TQ : Forall (fun b => b = true) (labels q)).
  { apply Forall_forall. intros b I. rewrite (add_ports_labels g new p q E) in I.
    apply in_app_or in I. destruct I as [I|I]; [auto|apply repeat_spec in I; exact I]. }
  assert (Q : forall k, In k (names q) -> label_of q k = Some true).
  { intros k I. unfold label_of. apply index_in in I. destruct I as [i I]. rewrite I.
    apply all_true; [exact TQ|]. apply index_lt in I. lia. }
  split; [|exact Q]. intros k I.
  rewrite (Q k (add_ports_names g new p q k E I)). symmetry. unfold label_of.
  apply index_in in I. destruct I as [i I]. rewrite I.
  apply all_true; [apply Forall_forall, T|]. apply index_lt in I. lia.
Qed.

(** The function itself does not keep labels: the label is appended at the end while the name is
    inserted.  Any new port in a part with an 'in' port and an 'out' port at the last cell turns
    the label of the latter. *)
Theorem C39_general_refuted : forall n key c, (0 < n)%nat -> (c <= n)%nat ->
  key <> "in"%string -> key <> "out"%string ->
  let p := {| cells := [0%nat; n]; names := ["in"; "out"]%string; labels := [true; false] |} in
  label_of p "out" = Some false /\ label_of (add_port p key c) "out" = Some true.
Proof.
  intros n key c P L K1 K2 p. split; [reflexivity|]. unfold label_of, p, add_port.
  cbn [cells names labels searchsorted].
  destruct (Nat.ltb_spec n c); [lia|].
  destruct (Nat.ltb_spec 0 c); cbn [insert_at firstn skipn app index_of].
  - destruct (string_dec "in" "out"); [discriminate|]. destruct (string_dec key "out"); [contradiction|].
    destruct (string_dec "out" "out"); [reflexivity|contradiction].
  - destruct (string_dec key "out"); [contradiction|]. destruct (string_dec "in" "out"); [discriminate|].
    destruct (string_dec "out" "out"); [reflexivity|contradiction].
Qed.

(** * C40: connections *)

(** After any successful sequence of calls: a port linked to a part port is linked back. *)
Theorem C40_symmetric_partial : forall all l s a b, connect_all all net0 l = Some s ->
  link s a = Some b -> is_port b = true -> link s b = Some a.
Proof. intros all l s a b E. apply (all_inv all l net0 s inv0 E). Qed.

(** No two ports are linked to the same part port. *)
Theorem C40_exclusive : forall all l s a b c, connect_all all net0 l = Some s ->
  is_port c = true -> link s a = Some c -> link s b = Some c -> a = b.
Proof.
  intros all l s a b c E P A B.
  pose proof (C40_symmetric_partial all l s a c E A P).
  pose proof (C40_symmetric_partial all l s b c E B P). congruence.
Qed.

(** Once linked, a part port keeps its partner in all later successful calls. *)
Theorem C40_permanent : forall all l1 l2 s1 s2 a b, connect_all all net0 l1 = Some s1 ->
  connect_all all s1 l2 = Some s2 -> is_port a = true -> link s1 a = Some b -> link s2 a = Some b.
Proof.
  intros all l1 l2 s1 s2 a b E1 E2 P L. rewrite <- L.
  apply (all_keeps all l2 s1 s2 a (all_inv all l1 net0 s1 inv0 E1) E2 P). congruence.
Qed.

(** A part port already named by a call is refused. *)
Theorem C40_refused : forall all l s a b c d, connect_all all net0 l = Some s ->
  In (c, d) l -> is_port a = true -> a = c \/ a = d ->
  connect all s a b = None /\ connect all s b a = None.
Proof.
  intros all l s a b c d E I P H.
  destruct (all_inv all l net0 s inv0 E) as [I1 _].
  destruct (all_made all l net0 s c d inv0 E I) as [M1 M2].
  assert (IN : In a (connected s)).
  { apply (I1 a P). destruct H as [->| ->]; [rewrite (M1 P)|rewrite (M2 P)]; discriminate. }
  apply mem_in in IN. unfold connect. rewrite P, IN. cbn [andb]. split; [reflexivity|].
  destruct (is_port b && mem b (connected s))%bool; reflexivity.
Qed.

(** The ports reported as unconnected are exactly those no call named. *)
Theorem C40_unconnected : forall all l s a, connect_all all net0 l = Some s ->
  (In a (unconnected all s) <-> In a all /\ forall b, ~ In (a, b) l /\ ~ In (b, a) l).
Proof.
  intros all l s a E. unfold unconnected. rewrite filter_In.
  pose proof (all_linked all l net0 s a E) as H. cbn [link net0] in H.
  destruct (link s a) as [x|] eqn:Q.
  - split; [intros [_ F]; discriminate|]. intros [_ F].
    destruct H as [_ H]. specialize (H (conj eq_refl F)). discriminate.
  - split; [|intros [I _]; auto]. intros [I _]. split; [exact I|]. apply H. reflexivity.
Qed.

(** Symmetry fails for boundary conditions: both ports of a pipe on one open port. *)
Definition p_in := Port "pipe" "in".
Definition p_out := Port "pipe" "out".
Definition bc := BC "cold".
Theorem C40_shared_refuted : exists s,
  init_connections [p_in; p_out; bc] [(p_in, bc); (p_out, bc)] = Some s /\
  link s p_in = Some bc /\ link s bc = Some p_out.
Proof. eexists. split; [reflexivity|]. split; reflexivity. Qed.

(** * C71: controls can be added when all ports are connected *)
Theorem C71_control : forall all l s, NoDup all -> connect_all all net0 l = Some s ->
  unconnected all s = [] -> (forall a b, In (a, b) l -> a <> b) ->
  NoDup (filter (fun x => negb (is_port x)) (ends l)) -> control_allowed all s = true.
Proof.
  intros all l s D E U SF B.
  destruct (all_count all l net0 s E) as (C1 & C2 & C3). cbn in C1, C2.
  assert (DE : NoDup (ends l)).
  { apply (filter_nodup is_port); [|exact B]. rewrite <- C2.
    apply (all_nodup all l net0 s); [constructor|exact E|exact SF]. }
  assert (IN : incl all (ends l)).
  { intros a I. destruct (in_dec pkey_eq a (ends l)) as [Q|Q]; [exact Q|].
    assert (W : In a (unconnected all s)).
    { apply (C40_unconnected all l s a E). split; [exact I|]. intros b.
      split; intros W; apply Q, in_flat_map.
      - exists (a, b). split; [exact W|]. cbn. auto.
      - exists (b, a). split; [exact W|]. cbn. auto. }
    rewrite U in W. contradiction. }
  unfold control_allowed. apply Nat.eqb_eq. rewrite C1.
  apply Nat.le_antisymm; apply NoDup_incl_length; assumption.
Qed.

(** The counter refuses controls although all ports are connected when a boundary condition is
    shared by two ports. *)
Theorem C71_shared_refuted : exists s,
  init_connections [p_in; p_out; bc] [(p_in, bc); (p_out, bc)] = Some s /\
  unconnected [p_in; p_out; bc] s = [] /\ control_allowed [p_in; p_out; bc] s = false.
Proof. eexists. split; [reflexivity|]. split; reflexivity. Qed.

(** * C41: every requested connection *)

(** If initialisation succeeds, every requested connection of part ports which no later request
    with the same first port replaced has been made. *)
Theorem C41_requests_partial : forall all l1 a b l2 s,
  init_connections all (l1 ++ (a, b) :: l2) = Some s -> ~ In a (map fst l2) ->
  (is_port a = true -> link s a = Some b) /\ (is_port b = true -> link s b = Some a).
Proof.
  intros all l1 a b l2 s E N. unfold init_connections in E.
  destruct (connect_all all net0 (requests (l1 ++ (a, b) :: l2))) as [t|] eqn:C; [|discriminate].
  destruct (unconnected all t); [|discriminate]. injection E as <-.
  apply (all_made all _ net0 t a b inv0 C). apply requests_last, N.
Qed.
(** With distinct first ports every request is made. *)
Corollary C41_distinct : forall all l s a b, NoDup (map fst l) ->
  init_connections all l = Some s -> In (a, b) l ->
  (is_port a = true -> link s a = Some b) /\ (is_port b = true -> link s b = Some a).
Proof.
  intros all l s a b D E I. apply in_split in I. destruct I as (l1 & l2 & ->).
  apply (C41_requests_partial all l1 a b l2 s E).
  rewrite map_app in D. cbn in D. apply NoDup_remove_2 in D. intros Q. apply D, in_or_app. auto.
Qed.
(** Nothing is linked that was not requested. *)
Theorem C41_only_requested : forall all l s a b, init_connections all l = Some s ->
  is_port a = true -> link s a = Some b -> In (a, b) l \/ In (b, a) l.
Proof.
  intros all l s a b E P L. unfold init_connections in E.
  destruct (connect_all all net0 (requests l)) as [t|] eqn:C; [|discriminate].
  destruct (unconnected all t); [|discriminate]. injection E as <-.
  pose proof (all_linked all (requests l) net0 t a C) as H. cbn [link net0] in H.
  assert (EX : exists y, In (a, y) (requests l) \/ In (y, a) (requests l)).
  { clear -H L.
    destruct (in_dec pkey_eq a (ends (requests l))) as [Q|Q].
    - apply in_flat_map in Q. destruct Q as ([u v] & I & W). cbn in W.
      destruct W as [->|[->|[]]]; eauto.
    - exfalso. assert (W : link t a = None).
      { apply H. split; [reflexivity|]. intros y. split; intros I; apply Q, in_flat_map;
          [exists (a, y)|exists (y, a)]; (split; [exact I|cbn; auto]). }
      congruence. }
  destruct EX as [y [I|I]];
    destruct (all_made all _ net0 t _ _ inv0 C I) as [M1 M2].
  - rewrite (M1 P) in L. injection L as <-. unfold requests in I.
    destruct (fold_back _ _ _ _ I) as [[]|Q]; auto.
  - rewrite (M2 P) in L. injection L as <-. unfold requests in I.
    destruct (fold_back _ _ _ _ I) as [[]|Q]; auto.
Qed.

(** A request replaced by a later one with the same first port is lost without any error. *)
Definition a_out := Port "a" "out".
Definition b_in := Port "b" "in".
Definition c_in := Port "c" "in".
Definition d_out := Port "d" "out".
Theorem C41_lost_refuted : exists s,
  init_connections [a_out; b_in; c_in; d_out]
    [(a_out, b_in); (a_out, c_in); (b_in, d_out)] = Some s /\
  link s a_out <> Some b_in /\ link s b_in <> Some a_out.
Proof. eexists. split; [reflexivity|]. split; discriminate. Qed.

(** Cases meeting the hypotheses. *)
Example ex_tank : exists q,
  add_ports g10 tank [("a"%string, ByVolume (35 / 1000)); ("b"%string, ByIndex (-1));
                      ("c"%string, ByDistance (5 / 10))] = Some q /\
  NoDup (names tank ++ ["a"; "b"; "c"]%string) /\
  StronglySorted le (cells tank) /\ (forall c, In c (cells tank) -> (c < gp g10)%nat) /\
  StronglySorted le (cells q) /\ cell_of q "in" = Some 0%nat /\ cell_of q "b" = Some 9%nat.
Proof.
  assert (W : exists c, resolve g10 (ByVolume (35 / 1000)) = Some c)
    by (apply C38_volume; cbn; lra || lia).
  assert (V : exists c, resolve g10 (ByDistance (5 / 10)) = Some c)
    by (apply C38_distance; cbn; lra || lia).
  destruct W as [c1 W]. destruct V as [c2 V].
  assert (S0 : StronglySorted le (cells tank)) by (repeat constructor).
  assert (F0 : forall c, In c (cells tank) -> (c < gp g10)%nat).
  { intros c I. cbn in I. destruct I as [<-|[<-|[]]]; cbn; lia. }
  assert (D : NoDup (names tank ++ ["a"; "b"; "c"]%string)).
  { repeat constructor; cbn; intuition discriminate. }
  assert (E : exists q, add_ports g10 tank [("a"%string, ByVolume (35 / 1000));
      ("b"%string, ByIndex (-1)); ("c"%string, ByDistance (5 / 10))] = Some q).
  { cbn [add_ports]. rewrite W. change (resolve g10 (ByIndex (-1))) with (Some 9%nat).
    cbv iota beta. rewrite V. eauto. }
  destruct E as [q E]. exists q. split; [exact E|]. split; [exact D|]. split; [exact S0|].
  split; [exact F0|].
  destruct (C38_sorted g10 tank _ q ltac:(cbn; lia) eq_refl eq_refl S0 F0 E) as (A & _).
  split; [exact A|].
  destruct (C38_names g10 tank [("a"%string, ByVolume (35 / 1000)); ("b"%string, ByIndex (-1));
    ("c"%string, ByDistance (5 / 10))] q ltac:(cbn; lia) eq_refl eq_refl S0 F0 D E) as [N1 N2].
  split; [rewrite (N1 "in"%string) by (cbn; auto); reflexivity|].
  destruct (N2 "b"%string (ByIndex (-1)) ltac:(cbn; auto)) as (c & R & Q).
  cbn in R. injection R as <-. exact Q.
Qed.
Example ex_net : exists s,
  init_connections [a_out; b_in; p_in; bc] [(a_out, b_in); (p_in, bc)] = Some s /\
  link s b_in = Some a_out /\ control_allowed [a_out; b_in; p_in; bc] s = true.
Proof. eexists. split; [reflexivity|]. split; reflexivity. Qed.

Print Assumptions C38_sorted.
Print Assumptions C38_names.
Print Assumptions C38_volume.
Print Assumptions C38_distance.
Print Assumptions C38_index.
Print Assumptions C38_duplicate_refuted.
Print Assumptions C39_labels.
Print Assumptions C39_general_refuted.
Print Assumptions C40_symmetric_partial.
Print Assumptions C40_exclusive.
Print Assumptions C40_permanent.
Print Assumptions C40_refused.
Print Assumptions C40_unconnected.
Print Assumptions C40_shared_refuted.
Print Assumptions C41_requests_partial.
Print Assumptions C41_distinct.
Print Assumptions C41_only_requested.
Print Assumptions C41_lost_refuted.
Print Assumptions C71_control.
Print Assumptions C71_shared_refuted.
