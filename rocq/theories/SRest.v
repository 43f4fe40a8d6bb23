(** Networks left to themselves (C185): vocabulary. *)
From Coq Require Import Reals List Arith.
From Verif Require Import MFlow MWater MDiff SFlow SDiff MSolver MHeun MRange SRange.
Import ListNotations.
Open Scope R_scope.

(** Every cell loses at least the share [c] per second of its excess temperature through its shell,
    whatever the temperatures and flows. *)
Definition loses (lo hi c : R) (p : node) : Prop :=
  let g := nd_geo p in
  forall Tx Tp b f, bufs_at g b -> flows_at g f ->
  (forall j, (j < g_n g)%nat -> lo <= Tx (S j) <= hi) ->
  (forall i, (i < g_np g)%nat -> lo <= Tp i <= hi) ->
  forall j, (j < g_n g)%nat -> c * capacity g Tx j <= r_ua (node_res p Tx Tp (b, f)) j.

(** Smallest conductance from a cell to the ambient: fluid at rest, wall, insulation, still air; the
    heat a cell holds is at most that of 4.225 MJ/m3/K. *)
Definition ua_floor (g : geo) : R :=
  g_Ai g / (g_di g / 2 + g_rlw g / g_lw g + g_rli g / g_li g + g_rr g * g_L g / 0.0135).
Definition loss_rate (g : geo) : R := ua_floor g / (4225000 * g_V g + g_mw g).

(** Port [i] takes its temperature from a cell of a pipe or storage, or is an outer port. *)
Definition from_cells (ps : list (nat * src)) (outer : nat -> Prop) (i : nat) : Prop :=
  outer i \/ (exists s, In (i, s) ps) /\ forall s, In (i, s) ps -> exists p c, s = SrcE p c.

(** A part without differential between pipes: it takes the temperatures of the ports [link] and
    keeps every range around [Ts] they lie in ([dl] below and [dh] above at most). *)
Definition hands_on (Ts dl dh : R) (np n : nat) (link : list nat) (f : npart) : Prop :=
  forall lo hi h ports, Ts - dl <= lo <= Ts -> Ts <= hi <= Ts + dh -> length ports = np ->
  (forall i, In i link -> lo <= nth i ports 0 <= hi) -> inside lo hi n (f h ports).

(** A network of pipes, branched pipes and storages, with such parts between them, in surroundings
    of [Ts]; the ports [outer] are those nothing is connected to. *)
Definition left_alone (geo_ok : geo -> Prop) (Ts dl dh c hmax : R) (outer : nat -> Prop) (gs : list geo)
  (z : sizes) (mo : model (buf * flows)) : Prop :=
  exists ps, mo_e mo = map node_part ps /\
  Forall2 (fun g p => node_ok geo_ok Ts Ts (sz_p z) g p /\ short (Ts - dl) (Ts + dh) hmax p /\
                      loses (Ts - dl) (Ts + dh) c p) gs ps /\
  Forall2 (fun n f => exists link, Forall (from_cells (mo_ports mo) outer) link /\
             Forall (fun i => (i < sz_p z)%nat) link /\ hands_on Ts dl dh (sz_p z) n link f) (sz_n z) (mo_n mo) /\
  mo_i mo = [] /\ wired z (mo_ports mo) /\
  forall k, (k < sz_p z)%nat -> ((exists s, In (k, s) (mo_ports mo)) <-> ~ outer k).

(** A run of the adaptive solver of duration [t], rejected attempts included; between the steps
    boundary conditions may set ports to [Ts]. *)
Inductive rest_run {Buf} (Ts : R) (ok : model Buf -> Prop) (c : cfg)
  : R -> mem Buf -> sst -> mem Buf -> sst -> Prop :=
| rr_nil m s : rest_run Ts ok c 0 m s m s
| rr_step mo fuel m s u m1 s1 m2 t m3 s3 :
    ok mo -> heun_adaptive mo c fuel m s = FAccepted u m1 s1 -> handover Ts Ts m1 m2 ->
    rest_run Ts ok c t m2 s1 m3 s3 -> rest_run Ts ok c (u + t) m s m3 s3.
