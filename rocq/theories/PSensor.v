(** C163: a controller sees the temperature at the place of its sensor. *)
From Coq Require Import List String ZArith Bool Reals Lia.
From Verif Require Import MSensor.
Import ListNotations.
Open Scope string_scope.
Open Scope list_scope.

(** The temperature at a port: the element of the flattened array the part itself uses, row by row. *)
Definition port_temperature (g : grid) (T : nat -> nat -> R) (i : nat) : R := T (i / g_cols g)%nat (i mod g_cols g)%nat.
Definition proper_line (n : nat) (ports : list (string * nat)) : Prop :=
  NoDup (map fst ports) /\ Forall (fun p => (snd p < n)%nat) ports.

Lemma find_port_in l q i : NoDup (map fst l) -> In (q, i) l -> find_port l q = Some i.
Proof.
  induction l as [|[a j] l IH]; cbn; [tauto|]. intros N [E|H].
  - injection E as -> ->. now rewrite String.eqb_refl.
  - inversion N as [|? ? N1 N2]. subst. destruct (String.eqb_spec a q) as [->|]; [|auto].
    exfalso. apply N1. apply in_map_iff. now exists (q, i).
Qed.
Lemma find_port_none l q : (forall i, ~ In (q, i) l) -> find_port l q = None.
Proof.
  induction l as [|[a j] l IH]; cbn; [reflexivity|]. intro H. destruct (String.eqb_spec a q) as [->|].
  - destruct (H j). now left.
  - apply IH. intros i I. apply (H i). now right.
Qed.
Lemma line_sensed n ports T i : (i < n)%nat -> number (line n ports) (view (line n ports) T i) = Some (T i 0%nat).
Proof. intro H. unfold view, line. cbn [g_rows g_cols]. destruct (Nat.ltb_spec i n); [reflexivity|lia]. Qed.

(** Pipes, pumps, storages, valves, connectors: at each port given by name the controller sees the temperature of this
    port at all times. *)
Theorem C163_port : forall n ports T q i, proper_line n ports -> In (q, i) ports ->
  sensed (line n ports) T (Named q) = Some (port_temperature (line n ports) T i).
Proof.
  intros n ports T q i [N F] H. unfold sensed. cbn [position line g_ports]. rewrite (find_port_in _ _ i N H).
  fold (line n ports). rewrite line_sensed; [|rewrite Forall_forall in F; exact (F _ H)].
  unfold port_temperature. cbn [line g_cols]. now rewrite Nat.div_1_r, Nat.mod_1_r.
Qed.
Print Assumptions C163_port.
(** Cells may also be given by number, from the end with negative numbers; other cells are refused, as are unknown
    ports and values that are neither. *)
Theorem C163_cell : forall n ports T z,
  ((0 <= z < Z.of_nat n)%Z -> sensed (line n ports) T (Cell z) = Some (T (Z.to_nat z) 0%nat)) /\
  ((- Z.of_nat n <= z < 0)%Z -> sensed (line n ports) T (Cell z) = Some (T (n - Z.to_nat (- z))%nat 0%nat)) /\
  ((z < - Z.of_nat n \/ Z.of_nat n <= z)%Z -> position (line n ports) (Cell z) = None).
Proof.
  intros n ports T z. unfold sensed, position. cbn [line g_rows].
  destruct (Z.leb_spec 0 z), (Z.ltb_spec z (Z.of_nat n)), (Z.leb_spec (- Z.of_nat n) z), (Z.ltb_spec z 0);
    cbn [andb orb]; repeat split; intro; try lia; try reflexivity;
    (destruct (Z.gtb_spec z (-1)); [|try lia]; fold (line n ports); try lia).
  all: rewrite line_sensed by lia; f_equal; f_equal; lia.
Qed.
Print Assumptions C163_cell.
Theorem C163_refused : forall g,
  (forall q, (forall i, ~ In (q, i) (g_ports g)) -> position g (Named q) = None) /\ position g Other = None.
Proof. intro g. split; [|reflexivity]. intros q H. cbn. now apply find_port_none. Qed.
Print Assumptions C163_refused.

(** The parts with one axis. *)
Theorem C163_parts : forall n new, (1 <= n)%nat -> NoDup ("in" :: map fst new ++ ["out"]) ->
  Forall (fun p => (snd p < n)%nat) new ->
  proper_line n [("in", 0); ("out", n - 1)]%nat /\
  proper_line n (("in", 0) :: new ++ [("out", n - 1)])%nat /\
  proper_line 3 [("A", 0); ("B", 1); ("AB", 2)]%nat /\ proper_line 3 [("A", 0); ("B", 1); ("C", 2)]%nat /\
  proper_line 4 [("sup_in", 0); ("sup_out", 1); ("dmd_in", 2); ("dmd_out", 3)]%nat.
Proof.
  intros n new H N F. assert (S : forall l : list string, (if list_eq_dec string_dec (nodup string_dec l) l then true else false) = true -> NoDup l).
  { intros l E. destruct (list_eq_dec string_dec (nodup string_dec l) l) as [Q|]; [|discriminate]. rewrite <- Q. apply NoDup_nodup. }
  repeat split; try (now apply S); try (repeat constructor; cbn; lia).
  - cbn. rewrite map_app. exact N.
  - constructor; [cbn; lia|]. apply Forall_app. split; [exact F|]. repeat constructor. cbn. lia.
Qed.
Print Assumptions C163_parts.
(** The named ports of each of these parts: the controller sees the cell the water of this port is in. *)
Theorem C163_named : forall n new T, (1 <= n)%nat -> NoDup ("in" :: map fst new ++ ["out"]) ->
  Forall (fun p => (snd p < n)%nat) new ->
  (sensed (pipe_grid n) T (Named "in") = Some (T 0 0) /\
   sensed (pipe_grid n) T (Named "out") = Some (T (n - 1) 0))%nat /\
  (sensed (storage_grid n new) T (Named "in") = Some (T 0 0) /\
   sensed (storage_grid n new) T (Named "out") = Some (T (n - 1) 0) /\
   forall q i, In (q, i) new -> sensed (storage_grid n new) T (Named q) = Some (T i 0))%nat /\
  (sensed valve_grid T (Named "A") = Some (T 0 0) /\ sensed valve_grid T (Named "B") = Some (T 1 0) /\
   sensed valve_grid T (Named "AB") = Some (T 2 0))%nat /\
  (sensed connector_grid T (Named "A") = Some (T 0 0) /\ sensed connector_grid T (Named "B") = Some (T 1 0) /\
   sensed connector_grid T (Named "C") = Some (T 2 0))%nat /\
  (sensed ntu_grid T (Named "sup_in") = Some (T 0 0) /\ sensed ntu_grid T (Named "sup_out") = Some (T 1 0) /\
   sensed ntu_grid T (Named "dmd_in") = Some (T 2 0) /\ sensed ntu_grid T (Named "dmd_out") = Some (T 3 0))%nat.
Proof.
  intros n new T H N F.
  destruct (C163_parts n new H N F) as (P1 & P2 & P3 & P4 & P5).
  assert (S : forall m l q i, proper_line m l -> In (q, i) l -> sensed (line m l) T (Named q) = Some (T i 0%nat)).
  { intros m l q i Q I. rewrite (C163_port m l T q i Q I). unfold port_temperature. cbn [line g_cols].
    now rewrite Nat.div_1_r, Nat.mod_1_r. }
  unfold pipe_grid, storage_grid, valve_grid, connector_grid, ntu_grid.
  repeat split; try (apply S; [assumption|cbn; tauto]).
  - apply S; [assumption|]. right. apply in_or_app. right. left. reflexivity.
  - intros q i I. apply S; [assumption|]. right. apply in_or_app. left. exact I.
Qed.
Print Assumptions C163_named.

(** Heat exchangers with a temperature grid accept sensors at their ports and cells but never give a number: the
    supply inlet gives a row of three temperatures, the supply outlet nothing at all. *)
Theorem C163_exchanger_refuted : forall n T, (2 <= n)%nat ->
  (forall q i, In (q, i) (g_ports (exchanger_grid n)) ->
     position (exchanger_grid n) (Named q) = Some i /\ sensed (exchanger_grid n) T (Named q) = None) /\
  view (exchanger_grid n) T 0 = [[T 0 0; T 0 1; T 0 2]]%nat /\
  view (exchanger_grid n) T ((n - 1) * 3) = [] /\ view (exchanger_grid n) T (n * 3 - 1) = [] /\
  (forall z, sensed (exchanger_grid n) T (Cell z) = None).
Proof.
  intros n T H. split; [|split; [|split; [|split]]].
  - intros q i I. assert (E : position (exchanger_grid n) (Named q) = Some i).
    { cbn in I. destruct I as [I|[I|[I|[I|[]]]]]; injection I as <- <-; reflexivity. }
    split; [exact E|]. unfold sensed. rewrite E. reflexivity.
  - unfold view. cbn [exchanger_grid g_rows g_cols]. destruct (Nat.ltb_spec 0 n); [reflexivity|lia].
  - unfold view. cbn [exchanger_grid g_rows]. destruct (Nat.ltb_spec ((n - 1) * 3) n); [lia|reflexivity].
  - unfold view. cbn [exchanger_grid g_rows]. destruct (Nat.ltb_spec (n * 3 - 1) n); [lia|reflexivity].
  - intro z. unfold sensed. destruct (position (exchanger_grid n) (Cell z)); reflexivity.
Qed.
Print Assumptions C163_exchanger_refuted.
(** The slice of the condensing heat exchanger at the water outlet is empty, at the flue gas inlet it is the row of the
    outlets. *)
Theorem C163_condensing_refuted : forall T,
  view condensing_grid T 2 = [] /\ view condensing_grid T 3 = [] /\
  position condensing_grid (Named "fluegas_in") = Some 1%nat /\
  view condensing_grid T 1 = [[port_temperature condensing_grid T 2; port_temperature condensing_grid T 3]] /\
  (forall p, sensed condensing_grid T p = None).
Proof.
  intro T. split; [reflexivity|]. split; [reflexivity|]. split; [reflexivity|]. split; [reflexivity|].
  intro p. unfold sensed. destruct (position condensing_grid p); reflexivity.
Qed.
Print Assumptions C163_condensing_refuted.

(** Example: a storage of 40 cells with a port in cell 16. *)
Example C163_example : forall T,
  sensed (storage_grid 40 [("rc", 16%nat)]) T (Named "rc") = Some (T 16 0)%nat /\
  sensed (storage_grid 40 [("rc", 16%nat)]) T (Named "out") = Some (T 39 0)%nat /\
  sensed (storage_grid 40 [("rc", 16%nat)]) T (Cell (-3)) = Some (T 37 0)%nat /\
  sensed (pipe_grid 2) T (Cell 2) = None.
Proof. intro T. repeat split. Qed.
