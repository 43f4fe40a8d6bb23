(** Model of the flow network update and of the flow routines that parts
    contribute to it.

    Code modelled (all paths under /repo/multisim):
    - simenv.py 2620-2708   SimEnv._update_FlowNet
    - simenv.py 1198, 1223-1229, 1558, 1566   writing time series values
    - parts/connector_3w.py 262-401   Connector3w._get_flow_routine
    - parts/mixingvalve.py 300-312, 404-626   Valve3w limits, routine, control
    - parts/pipe_with_valve.py 166-192, 194-393   PipeWith3wValve
    - parts/tes.py 840-960, parts/pipe_branched.py 143-232   hub routine

    Simplifications: every massflow or split factor cell is an address in one
    memory [nat -> R]; numpy views to the same cell are the same address.
    Floats are exact reals.  A division by zero (numpy: inf or nan with a
    warning) and a missing source (IndexError) are [None]. *)
From Coq Require Import Reals ZArith List Bool Lra Lia Arith.
Import ListNotations.
Local Open Scope R_scope.

(** One cell address and the contents of all cells. *)
Definition addr := nat.
Definition mem := addr -> R.

(** [arr[i] = x]. *)
Definition upd (m : mem) (a : addr) (x : R) : mem :=
  fun b => if Nat.eqb b a then x else m b.

(** One element of [SimEnv.flow_net] (simenv.py 2628-2650): target view,
    operation id, source views. *)
Record entry := { tgt : addr; opid : Z; srcs : list addr }.

(** numpy division of two cells; a zero divisor gives inf or nan. *)
Definition ndiv (a b : R) : option R :=
  if Req_EM_T b 0 then None else Some (a / b).

(** [np.sum(port[2:])]. *)
Fixpoint msum (m : mem) (l : list addr) : R :=
  match l with [] => 0 | a :: r => m a + msum m r end.

(** One pass of the loop body, simenv.py 2657-2703.  Operation -1 writes the
    target after every source, as the code does.  An unknown operation id
    falls through all branches and writes nothing. *)
Definition exec (e : entry) (m : mem) : option mem :=
  let t := tgt e in
  match opid e, srcs e with
  | 0%Z, s :: _ => Some (upd m t (m s))
  | (-1)%Z, s :: r =>
      Some (fold_left (fun m' a => upd m' t (m' t - m' a)) r
                      (upd m t (- m s)))
  | 1%Z, l => Some (upd m t (msum m l))
  | (-3)%Z, a :: b :: _ => Some (upd m t (- (m a * m b)))
  | (-4)%Z, a :: b :: _ =>
      option_map (fun q => upd m t (- q)) (ndiv (m a) (m b))
  | 3%Z, a :: b :: _ => Some (upd m t (m a * m b))
  | 4%Z, a :: b :: _ => option_map (upd m t) (ndiv (m a) (m b))
  | 2%Z, a :: b :: _ => Some (upd m t (m a - m b))
  | 5%Z, a :: b :: c :: _ => option_map (upd m t) (ndiv (m a * m b) (m c))
  | 0%Z, [] | (-1)%Z, [] => None
  | (-3)%Z, _ | (-4)%Z, _ | 3%Z, _ | 4%Z, _ | 2%Z, _ | 5%Z, _ => None
  | _, _ => Some m
  end.

(** [_update_FlowNet]: the loop over [self.flow_net], simenv.py 2656. *)
Fixpoint run_net (net : list entry) (m : mem) : option mem :=
  match net with
  | [] => Some m
  | e :: r => match exec e m with Some m' => run_net r m' | None => None end
  end.

(** ** Routines of parts *)

(** Where a port gets its value from: the parent port's cell and whether the
    positive directions are contrary ([alg_sign], simenv.py 3800-3830). *)
Record parent := { p_src : addr; p_pos : bool }.

(** Copy a connected port's value, operation 0 or -1.
    connector_3w.py 337-353, mixingvalve.py 515-533, pipe_with_valve.py
    228-242, tes.py 857-873, pipe_branched.py 157-172. *)
Definition pass_on (t : addr) (p : parent) : entry :=
  {| tgt := t; opid := (if p_pos p then 0 else -1)%Z; srcs := [p_src p] |}.

(** A request of the topology analyser: the port to solve and the parent port
    it comes from ([None]: from inside the part). *)
Definition request := (nat * option parent)%type.

(** Connector3w._get_flow_routine, connector_3w.py 286-354.  [d] is the
    address of [_dm_io[0]], ports A, B, C are 0, 1, 2; [solved] is
    [_solved_ports].  With one open port left the two other own ports are
    the sources, in port order. *)
Definition conn_routine (d : addr) (solved : list nat) (rq : request)
  : option entry :=
  let (p, par) := rq in
  if (3 - length solved =? 1)%nat then
    Some {| tgt := (d + p)%nat; opid := -1;
            srcs := map (Nat.add d) (filter (fun q => negb (q =? p)%nat)
                                            [0; 1; 2]%nat) |}
  else option_map (pass_on (d + p)%nat) par.

(** Valve3w._get_flow_routine, mixingvalve.py 447-560.  [f] is the address of
    [pf_arr[0]].  The first port must be AB (assertions 2 and 4, lines
    500-508); later ports are products with the port's own split factor. *)
Definition valve_routine (d f : addr) (solved : list nat) (rq : request)
  : option entry :=
  let (p, par) := rq in
  if (3 - length solved =? 3)%nat then
    if (p =? 2)%nat then option_map (pass_on (d + p)%nat) par else None
  else Some {| tgt := (d + p)%nat; opid := 3; srcs := [(d + 2)%nat; (f + p)%nat] |}.

(** PipeWith3wValve._get_flow_routine, pipe_with_valve.py 224-321. *)
Definition pvalve_routine (d f : addr) (solved : list nat) (rq : request)
  : option entry :=
  let (p, par) := rq in
  let src := if existsb (Nat.eqb 0) solved then 0%nat else 1%nat in
  if (3 - length solved =? 3)%nat then option_map (pass_on (d + p)%nat) par
  else if ((p <? 2)%nat && existsb (Nat.eqb 2) solved)%bool then
    Some {| tgt := (d + p)%nat; opid := -3; srcs := [(d + 2)%nat; (f + p)%nat] |}
  else if (p =? 2)%nat then
    Some {| tgt := (d + p)%nat; opid := -4; srcs := [(d + src)%nat; (f + src)%nat] |}
  else
    Some {| tgt := (d + p)%nat; opid := 5;
            srcs := [(d + src)%nat; (f + p)%nat; (f + src)%nat] |}.

(** Tes._get_flow_routine and PipeBranched._get_flow_routine (tes.py 840-940,
    pipe_branched.py 143-232) for a part with [n] ports: copy a connected
    port while a parent is given, else the negative sum of all solved own
    ports. *)
Definition hub_routine (d : addr) (n : nat) (solved : list nat) (rq : request)
  : option entry :=
  let (p, par) := rq in
  match par with
  | Some q => Some (pass_on (d + p)%nat q)
  | None =>
      if (n - length solved =? 1)%nat then
        Some {| tgt := (d + p)%nat; opid := -1; srcs := map (Nat.add d) solved |}
      else None
  end.

(** The topology analyser asks for the ports one after the other and each
    routine appends its port to [_solved_ports] (connector_3w.py 357,
    mixingvalve.py 563, pipe_with_valve.py 324, tes.py 944). *)
Fixpoint routines (rt : list nat -> request -> option entry)
                  (solved : list nat) (rqs : list request)
  : option (list entry) :=
  match rqs with
  | [] => Some []
  | rq :: r =>
      match rt solved rq with
      | None => None
      | Some e => option_map (cons e) (routines rt (solved ++ [fst rq]) r)
      end
  end.

(** ** Split factors *)

(** Valve3w.init_part, mixingvalve.py 271-312: the start opening of port A
    and the limits that pass the assertions. *)
Record valve_cfg := { v_start : R; v_ll : R; v_ul : R }.
Definition valve_accepts (c : valve_cfg) : Prop :=
  0 <= v_start c <= 1 /\ 0 <= v_ll c /\ v_ll c < v_ul c /\ v_ul c <= 1.

(** PipeWith3wValve.init_part, pipe_with_valve.py 170-186 with
    simenv.py 1155-1163: the limits are not checked at all. *)
Definition pvalve_accepts (c : valve_cfg) : Prop := 0 <= v_start c <= 1.

(** [pf_arr[0] = x; pf_arr[1] = 1 - pf_arr[0]], mixingvalve.py 280-287,
    pipe_with_valve.py 180-181. *)
Definition set_split (f : addr) (x : R) (m : mem) : mem :=
  upd (upd m f x) (f + 1)%nat (1 - x).

(** [_process_cv], mixingvalve.py 615-626 and pipe_with_valve.py 382-393. *)
Definition clip (ll ul cv : R) : R :=
  if Rlt_dec cv ll then ll else if Rlt_dec ul cv then ul else cv.
Definition process_cv (f : addr) (c : valve_cfg) (cv : R) (m : mem) : mem :=
  set_split f (clip (v_ll c) (v_ul c) cv) m.

(** A time series given to an actuator with [ctrl_required=False]
    (simenv.py 1223-1229): [_initialize_actuator] is called without
    [variable_name] by PipeWith3wValve (pipe_with_valve.py 186), so its default
    ['dm'] is the variable the series is bound to, at [array_index=0].
    [d] is the address of [dm[0]]; every boundary update writes the
    interpolated value there (simenv.py 1566, 2755-2763). *)
Definition pvalve_series (d : addr) (x : R) (m : mem) : mem := upd m d x.
