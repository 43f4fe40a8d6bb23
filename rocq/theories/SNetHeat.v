(** Heat balance of a whole network at one instant (C157). *)
From Coq Require Import Reals List Arith Bool.
From Verif Require Import MFlow MWater MDiff SFlow SDiff.
Import ListNotations.
Open Scope R_scope.

(** A part of the network with everything its differential is evaluated with. *)
Inductive ukind := UPipe (io : R) | UHeated (lo hi : nat) (dQ io : R) | UBranch (io : arr) | UTes (io : arr).
Record unit_ := mkUnit { u_geo : geo; u_kind : ukind; u_T : arr; u_P : arr; u_amb : R; u_fl : flows; u_buf : buf }.

Definition u_res (u : unit_) : res :=
  let g := u_geo u in
  match u_kind u with
  | UPipe io => pipe_diff g io (u_fl u) (u_T u) (u_P u) (u_amb u) (u_buf u)
  | UHeated lo hi dQ io => heated_diff g lo hi dQ io (u_fl u) (u_T u) (u_P u) (u_amb u) (u_buf u)
  | UBranch io => branched_diff g io (u_fl u) (u_T u) (u_P u) (u_amb u) (u_buf u)
  | UTes io => tes_diff g io (u_fl u) (u_T u) (u_P u) (u_amb u) (u_buf u)
  end.

(** Signed flows through the ports, positive into the part. *)
Definition u_io (u : unit_) : arr :=
  match u_kind u with
  | UPipe io | UHeated _ _ _ io => through io
  | UBranch io | UTes io => io
  end.

(** Valid data, flows in balance, temperatures between 0 and 100 degrees, heated cells exist. *)
Definition u_ok (geo_ok : geo -> Prop) (u : unit_) : Prop :=
  let g := u_geo u in
  geo_ok g /\ in_range g (u_T u) (u_P u) (u_amb u) /\ flows_at g (u_fl u) /\
  match u_kind u with
  | UPipe _ => pipe_ports g
  | UHeated lo hi _ _ => pipe_ports g /\ (lo < hi)%nat /\ (hi <= g_n g)%nat
  | UBranch io | UTes io => branch_ports g /\ rsum (g_np g) io = 0
  end.

(** Rate at which the heat content of the part changes. *)
Definition u_gain (u : unit_) : R := heat_rate (u_geo u) (u_T u) (r_tot (u_res u)).

(** Heat received from the ambient through shell and lids, and from the heating. *)
Definition u_ambient (u : unit_) : R :=
  let g := u_geo u in let r := u_res u in
  rsum (g_n g) (fun j => r_ua r j * (u_amb u - u_T u (S j)))
  + match u_kind u with
    | UTes _ => r_lid r 0%nat * (u_amb u - u_T u 1%nat) + r_lid r 1%nat * (u_amb u - u_T u (g_n g))
    | _ => 0 end.
Definition u_heating (u : unit_) : R :=
  match u_kind u with
  | UHeated _ _ dQ _ => heat_power (g_n (u_geo u)) (u_T u) dQ
  | _ => 0 end.

(** Heat received through port [i]: conduction, and enthalpy of the water passing it. *)
Definition u_port (u : unit_) (i : nat) : R :=
  r_uap (u_res u) i * (u_P u i - u_T u (S (g_own (u_geo u) i)))
  + (Rmax 0 (u_io u i) * enthalpy (u_P u i)
     - Rmax 0 (- u_io u i) * enthalpy (u_T u (S (g_own (u_geo u) i)))).

(** The network [net 0 .. net (K-1)]; a port is a part number and a port number. *)
Definition port_of (K : nat) (net : nat -> unit_) (p : nat * nat) : Prop :=
  (fst p < K)%nat /\ (snd p < g_np (u_geo (net (fst p))))%nat.
Definition ports_list (K : nat) (net : nat -> unit_) : list (nat * nat) :=
  flat_map (fun k => map (pair k) (seq 0 (g_np (u_geo (net k))))) (seq 0 K).

(** Two ports are connected: each sees the temperature of the other's cell, what leaves one enters
    the other, and both were given the same connection data (simenv.py 1727-1858, 2540-2660). *)
Definition joined (net : nat -> unit_) (p q : nat * nat) : Prop :=
  let u := net (fst p) in let v := net (fst q) in
  u_P u (snd p) = u_T v (S (g_own (u_geo v) (snd q))) /\
  u_io v (snd q) = - u_io u (snd p) /\
  g_pA (u_geo v) (snd q) = g_pA (u_geo u) (snd p) /\ g_pw (u_geo v) (snd q) = g_pw (u_geo u) (snd p) /\
  g_pgsp (u_geo u) (snd p) = g_gsp (u_geo v).

(** Who is connected to whom; ports without partner are at the boundary. *)
Definition plumbing (K : nat) (net : nat -> unit_) (mate : nat * nat -> option (nat * nat)) : Prop :=
  forall p q, port_of K net p -> mate p = Some q ->
  port_of K net q /\ mate q = Some p /\ q <> p /\ joined net p q.

Definition lsum {A} (f : A -> R) (l : list A) : R := fold_right (fun x s => f x + s) 0 l.
Definition at_boundary (mate : nat * nat -> option (nat * nat)) (p : nat * nat) : bool :=
  match mate p with None => true | Some _ => false end.
