(** Vocabulary for the properties of the topology analyser: buildable designs,
    flow distributions that are physically consistent, balances. *)
From Coq Require Import Reals ZArith List Bool Arith.
From Verif Require Import MNet SNet MTopo.
Import ListNotations.

(** A port that exists. *)
Definition valid (N : design) (x : port) : Prop :=
  (fst x < nparts N)%nat /\ (snd x < nports (kd N (fst x)))%nat.

(** A design as [add_part] and [connect_ports] build it: connections are
    symmetric and between existing ports, every massflow cell belongs to one part,
    split factors are separate from massflows, hubs have at least two ports. *)
Record buildable (N : design) : Prop := {
  b_sym : forall x y, link N x = Some y -> link N y = Some x;
  b_valid : forall x y, link N x = Some y -> valid N x -> valid N y;
  b_cells : forall p q c d, (p < nparts N -> q < nparts N ->
     c < ncells (kd N p) -> d < ncells (kd N q) ->
     dcell N p + c = dcell N q + d -> p = q /\ c = d)%nat;
  b_factors : forall p q b c, (p < nparts N -> q < nparts N -> b < 2 ->
     c < ncells (kd N q) -> fcell N p + b <> dcell N q + c)%nat;
  b_hub : forall p b n, (p < nparts N)%nat -> kd N p = KHub b n -> (2 <= n)%nat }.

(** Flows [phi] into (resp. out of, by the port's sign convention) all ports
    that obey the physics of every part and every connection, for the pump flows,
    externally driven flows and split factors in the memory [m]. *)
Record consistent (N : design) (m : mem) (phi : port -> R) : Prop := {
  c_link : forall x y, valid N x -> link N x = Some y ->
    phi x = (if Bool.eqb (char (kind_of N x) (snd x)) (char (kind_of N y) (snd y))
             then - phi y else phi y)%R;
  c_pipe : forall p, (p < nparts N)%nat -> kd N p = KPipe -> phi (p, 0) = phi (p, 1);
  c_pump : forall p i, (p < nparts N)%nat -> kd N p = KPump -> (i < 2)%nat ->
    phi (p, i) = m (dcell N p);
  c_hex : forall p b, (p < nparts N)%nat -> kd N p = KHex b ->
    phi (p, 0) = phi (p, 1) /\ phi (p, 2) = phi (p, 3)
    /\ (external N p = true -> phi (p, 2) = m (dcell N p + 1)%nat);
  c_conn : forall p, (p < nparts N)%nat -> kd N p = KConn ->
    (phi (p, 0%nat) + phi (p, 1%nat) + phi (p, 2%nat) = 0)%R;
  c_valve : forall p b i, (p < nparts N)%nat -> kd N p = KValve b -> (i < 2)%nat ->
    (phi (p, i) = m (fcell N p + i)%nat * phi (p, 2%nat))%R;
  c_pvalve : forall p i, (p < nparts N)%nat -> kd N p = KPValve -> (i < 2)%nat ->
    (phi (p, i) = - (m (fcell N p + i)%nat * phi (p, 2%nat)))%R;
  c_hub : forall p b n, (p < nparts N)%nat -> kd N p = KHub b n ->
    fold_right Rplus 0%R (map (fun i => phi (p, i)) (seq 0 n)) = 0%R }.

(** No branch of a valve pipe is completely shut. *)
Definition branches_open (N : design) (m : mem) : Prop :=
  forall p i, (p < nparts N)%nat -> kd N p = KPValve -> (i < 2)%nat ->
  m (fcell N p + i)%nat <> 0%R.

(** A relation that copies a cell onto itself has no effect. *)
Definition idle (e : entry) : bool :=
  match srcs e with [s] => (Z.eqb (opid e) 0 && (s =? tgt e)%nat)%bool | _ => false end.
Definition essential (l : list entry) : list entry := filter (fun e => negb (idle e)) l.

(** Flow read at a port after an update. *)
Definition flow (N : design) (st : topo) (m : mem) (x : port) : R := m (addr_of N st x).

(** The two ends of a connection show the same flow. *)
Definition joined (N : design) (st : topo) (m : mem) (x y : port) : Prop :=
  (flow N st m x = if Bool.eqb (char (kind_of N x) (snd x)) (char (kind_of N y) (snd y))
                   then - flow N st m y else flow N st m y)%R.
