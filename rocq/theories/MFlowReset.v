(** Model of what [initialize_sim(reset_simenv=True)] writes to flows and valve openings of a
    network.

    Code (all under /repo/multisim): simenv.py [_reset_simenv] (4782-4802: parts in the order
    of their creation, then [_initialize_dynamic_BC]), [_initialize_dynamic_BC] (1560-1566);
    [_reset_to_init_cond] of parts/pipe.py (499-501, inherited by heated pipes, CHP plants,
    branched pipes, pipes with pump and pipes with valve), parts/pump.py (344-345),
    parts/tes.py (625-627), parts/mixingvalve.py (404-414), parts/connector_3w.py (259-260),
    parts/heatexchanger.py (501-502), parts/hex_num.py (646-647),
    parts/hex_condensing_polynome.py (441-442).

    The flow arrays are cells of one memory; a pipe which only passes on the flow of its
    neighbour has no array of its own any more, but a view of the neighbour's (pipe.py 550-562,
    [view] of [MTopo]).

    Simplifications: parts are numbered in the order of their creation; temperatures,
    controllers and the time frame are left out (see [MReset], C32, C124). *)
From Coq Require Import Reals List Bool Arith.
From Verif Require Import MNet MTopo.
Import ListNotations.

(** What the user gave: start flow of pumps ([start_massflow], [dm_const]), opening of valves
    ([_pf_init]), pumps that are a [PipeWithPump] and the time series bound to flows and openings
    with their first value ([_dyn_BC]). *)
Record given := { g_flow : nat -> R; g_open : nat -> R; g_pipe : nat -> bool;
                  g_series : list (addr * R) }.

(** [self._dm_io[:] = 0] for an array of its own. *)
Definition clear (d : addr) (n : nat) (m : mem) : mem :=
  fold_left (fun m c => upd m (d + c) 0%R) (seq 0 n) m.

(** [_reset_to_init_cond] of part [p]. *)
Definition reset_part (N : design) (st : topo) (g : given) (p : nat) (m : mem) : mem :=
  match kd N p with
  | KPipe => upd m (addr_of N st (p, 0)) 0%R
  | KPump => upd m (dcell N p) (if g_pipe g p then 0%R else g_flow g p)
  | KValve _ => set_split (fcell N p) (g_open g p) m
  | KHex _ | KConn => m
  | KPValve | KHub _ _ => clear (dcell N p) (ncells (kd N p)) m
  end.

Definition reset_parts (N : design) (st : topo) (g : given) (m : mem) : mem :=
  fold_left (fun m p => reset_part N st g p m) (seq 0 (nparts N)) m.

(** 1565-1566 *)
Definition first_values (l : list (addr * R)) (m : mem) : mem :=
  fold_left (fun m s => upd m (fst s) (snd s)) l m.

Definition reset_flows (N : design) (st : topo) (g : given) (m : mem) : mem :=
  first_values (g_series g) (reset_parts N st g m).
