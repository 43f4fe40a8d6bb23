(** Model of the parameters of heat conduction over port connections.

    Code: /repo/multisim/simenv.py [_get_port_connections] (1713-1901), [_calc_UAwll_port]
    (2563-2620), called once at initialisation (4628-4630).

    Simplifications: ports carry global numbers; the four values of a port (wall area, fluid area,
    grid spacing, wall conductivity) form a record; parts with one value for all ports have equal
    records; parts are given with their ports, all distinct. *)
From Coq Require Import Reals List Arith.
Import ListNotations.
Open Scope R_scope.

Record pspec := { aw : R; af : R; gsp : R; lam : R }.
Definition pzero : pspec := {| aw := 0; af := 0; gsp := 0; lam := 0 |}.

Record part := { numeric : bool; pids : list nat }.

(** Environment: partner of a port, whether the port is on a boundary condition, and whether the
    part owning a port conducts heat over its ports ([_port_heatcond]). *)
Record wiring := { partner : nat -> nat; on_bc : nat -> bool; heatcond : nat -> bool }.

Record pstate := { own : nat -> pspec; conn : nat -> pspec }.

(** The order of the parts (1733-1741): non-numeric parts are inserted at the front. *)
Definition loop_order (l : list part) : list part :=
  fold_left (fun acc p => if numeric p then acc ++ [p] else p :: acc) l [].

Definition memb (x : nat) (l : list nat) : bool := if in_dec Nat.eq_dec x l then true else false.

(** Values taken over from the partner (1795-1838); on a boundary condition from the port
    itself. *)
Definition take (w : wiring) (o : nat -> pspec) (x : nat) : pspec :=
  let s := if on_bc w x then x else partner w x in
  if heatcond w s then o s else pzero.

Definition mean_by (f : pspec -> R) (l : list pspec) : R :=
  fold_right Rplus 0 (map f l) / INR (length l).
Definition mean_spec (l : list pspec) : pspec :=
  {| aw := mean_by aw l; af := mean_by af l; gsp := mean_by gsp l; lam := mean_by lam l |}.

(** One part of the loop. *)
Definition visit (w : wiring) (s : pstate) (p : part) : pstate :=
  let c := fun x => if memb x (pids p) then take w (own s) x else conn s x in
  {| conn := c;
     own := if numeric p then own s
            else fun x => if memb x (pids p)
                          then mean_spec (map c (remove Nat.eq_dec x (pids p)))
                          else own s x |}.
Definition port_connections (w : wiring) (s : pstate) (l : list part) : pstate :=
  fold_left (visit w) (loop_order l) s.

(** Conductance of the walls at a port. *)
Definition UA_wall (s : pstate) (x : nat) : R :=
  if Req_EM_T (aw (conn s x)) 0 then 0
  else (aw (own s x) + aw (conn s x)) / 2 /
       (gsp (conn s x) / (2 * lam (conn s x)) + gsp (own s x) / (2 * lam (own s x))).
