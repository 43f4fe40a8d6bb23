(** Model of the topology analyser, which builds the list of flow relations.

    Code modelled (all paths under /repo/multisim):
    - simenv.py 2186-2323   SimEnv._get_topology
    - simenv.py 2325-2563   _recursive_topology
    - simenv.py 3676-3823   _get_topo_cond (views and algebraic sign)
    - [_get_flow_routine] of: parts/pipe.py 503-597, parts/pump.py 347-411,
      parts/pipe_with_pump.py 127-185, parts/heatexchanger.py 1023-1097,
      parts/hex_num.py 1191-1267, parts/hex_condensing_polynome.py 444-520,
      parts/connector_3w.py, parts/mixingvalve.py, parts/pipe_with_valve.py,
      parts/tes.py, parts/pipe_branched.py (the last five as in [MNet])

    Simplifications: parts and ports are numbers, ports in the order of
    [port_names]; heated pipes, 2D pipes and CHP plants are pipes, pipes with pump
    are pumps.  Flow channels are numbers (the code finds them by a search in the
    name, see [MChannel]).  Raised exceptions of any kind are [Raised].  The
    information dictionaries and the order of [solve_nonnum] are left out.
    Empty and dummy tuples (operation -99), which the code removes at the end,
    are never added.  The two loops over the set of remaining parts, whose
    order Python leaves open, are one loop over an arbitrary list of candidates
    (the code's two loops are an instance); like the code it starts a sub net at a
    part with one open port and break_topology. *)
From Coq Require Import Reals ZArith List Bool Arith.
From Verif Require Import MNet.
Import ListNotations.

(** [KHex true]: the second port of a channel copies the cell onto itself
    (heatexchanger.py 1053-1063, hex_condensing_polynome.py 476-486);
    [KHex false]: no relation (hex_num.py 1251-1255).  [KHub true n]: hydraulic
    compensator (storage) with [n] ports; [KHub false n]: branched pipe. *)
Inductive kind :=
| KPipe | KPump | KHex (copies : bool) | KConn | KValve (mix : bool) | KPValve
| KHub (comp : bool) (n : nat).

Definition port := (nat * nat)%type.

Definition nports (k : kind) : nat :=
  match k with
  | KPipe | KPump => 2 | KHex _ => 4 | KConn | KValve _ | KPValve => 3 | KHub _ n => n
  end.

(** Massflow cell of a port: one cell per part resp. flow channel for invariant
    flow. *)
Definition cellix (k : kind) (i : nat) : nat :=
  match k with KPipe | KPump => 0 | KHex _ => i / 2 | _ => i end.
Definition ncells (k : kind) : nat :=
  match k with KPipe | KPump => 1 | KHex _ => 2 | k => nports k end.

(** [dm_char]: [true] is 'in', i.e. flow into the part is positive. *)
Definition char (k : kind) (i : nat) : bool :=
  match k with
  | KPipe | KPump => i =? 0
  | KHex _ => Nat.even i
  | KValve mix => if mix then negb (i =? 2) else (i =? 2)
  | _ => true
  end.

(** What the user built: kinds, number of parts, connections ([None]: boundary
    condition), addresses of the first massflow cell and the first split factor,
    limits of a controlled actuator (simenv.py 1157-1163), parts with cells,
    heat exchangers whose second channel is driven by a CHP plant
    (chp_plant.py 526-532). *)
Record design := {
  kd : nat -> kind; nparts : nat; link : port -> option port;
  dcell : nat -> addr; fcell : nat -> addr; lims : nat -> option (R * R);
  numeric : nat -> bool; external : nat -> bool }.

Definition kind_of (N : design) (x : port) : kind := kd N (fst x).
Definition own (N : design) (x : port) : addr := dcell N (fst x) + cellix (kind_of N x) (snd x).

(** [_solved_ports] of all parts, views of pipes to cells of other parts
    (pipe.py 560-565), relations so far. *)
Record topo := { solved : nat -> list nat; view : nat -> option addr; out : list entry }.

Definition mem_nat (i : nat) (l : list nat) : bool := existsb (Nat.eqb i) l.
Definition is_solved (st : topo) (x : port) : bool := mem_nat (snd x) (solved st (fst x)).
Definition open (N : design) (st : topo) (p : nat) : nat := nports (kd N p) - length (solved st p).
Definition addr_of (N : design) (st : topo) (x : port) : addr :=
  match view st (fst x) with Some a => a | None => own N x end.

(** Membership in [_hydr_comps]: completely solved parts are removed, storages
    never (tes.py 945-946). *)
Definition in_hydr (N : design) (st : topo) (p : nat) : bool :=
  match kd N p with KHub true _ => true | _ => 0 <? open N st p end.

(** [break_topology] after a routine. *)
Definition breaks (N : design) (st : topo) (p : nat) : bool :=
  match kd N p with KConn => 1 <? open N st p | KHub _ _ => 0 <? open N st p | _ => false end.

(** [_get_topo_cond] for a parent port. *)
Definition cond (N : design) (st : topo) (x y : port) : parent :=
  {| p_src := addr_of N st y;
     p_pos := negb (Bool.eqb (char (kind_of N x) (snd x)) (char (kind_of N y) (snd y))) |}.

Inductive side := Pressure | Suction | Sub.
Definition side_eqb (a b : side) : bool :=
  match a, b with Pressure, Pressure | Suction, Suction | Sub, Sub => true | _, _ => false end.

(** What a routine gives back: relations, a new view of the part, whether the
    port is marked as solved. *)
Record answer := { a_out : list entry; a_view : option addr; a_marks : bool }.
Definition plain (o : option entry) : option answer :=
  option_map (fun e => {| a_out := [e]; a_view := None; a_marks := true |}) o.
Definition nothing : answer := {| a_out := []; a_view := None; a_marks := true |}.

(** [_get_flow_routine] of port [x] coming from [par] in the net of [root]. *)
Definition ask (N : design) (st : topo) (root : nat) (sd : side) (x : port)
  (par : option port) : option answer :=
  let p := fst x in let i := snd x in
  let con := option_map (cond N st x) par in
  match kd N p with
  | KPump =>
      match par with
      | None => Some nothing
      | Some _ => if p =? root then Some {| a_out := []; a_view := None; a_marks := false |}
                  else None
      end
  | KPipe =>
      match con with
      | None => None
      | Some c => if open N st p =? 2 then
                    if p_pos c then Some {| a_out := []; a_view := Some (p_src c); a_marks := true |}
                    else Some {| a_out := [pass_on (own N x) c]; a_view := None; a_marks := true |}
                  else Some nothing
      end
  | KHex copies =>
      match con with
      | None => None
      | Some c =>
          if existsb (fun j => j / 2 =? i / 2) (solved st p) then
            if copies then
              plain (Some {| tgt := own N x; opid := 0; srcs := [own N x] |})
            else Some nothing
          else plain (Some (pass_on (own N x) c))
      end
  | KConn => plain (conn_routine (dcell N p) (solved st p) (i, con))
  | KValve mix =>
      match par with
      | None => None
      | Some y =>
          if ((open N st p =? 3)
              && (side_eqb sd (if mix then Pressure else Suction) || negb (numeric N (fst y))))%bool
          then None
          else plain (valve_routine (dcell N p) (fcell N p) (solved st p) (i, con))
      end
  | KPValve =>
      match par with
      | None => None
      | Some _ => plain (pvalve_routine (dcell N p) (fcell N p) (solved st p) (i, con))
      end
  | KHub _ n => plain (hub_routine (dcell N p) n (solved st p) (i, con))
  end.

(** State after a routine. *)
Definition record (st : topo) (x : port) (a : answer) : topo :=
  {| solved := fun q => if ((q =? fst x) && a_marks a)%bool then solved st q ++ [snd x]
                        else solved st q;
     view := fun q => if q =? fst x
                      then match a_view a with Some v => Some v | None => view st q end
                      else view st q;
     out := out st ++ a_out a |}.

(** 2457-2506: limits equal to zero are refused if the relation divides. *)
Definition limits_ok (N : design) (p : nat) (a : answer) : bool :=
  if existsb (fun e => (Z.eqb (opid e) (-4) || Z.eqb (opid e) 4 || Z.eqb (opid e) 5)%bool) (a_out a)
  then match lims N p with
       | None => true
       | Some (l, u) => if Req_EM_T l 0 then false else if Req_EM_T u 0 then false else true
       end
  else true.

Inductive res (A : Type) := Done (a : A) | Raised | OutOfFuel.
Arguments Done {A} a. Arguments Raised {A}. Arguments OutOfFuel {A}.

Definition is_pump (N : design) (p : nat) : bool := match kd N p with KPump => true | _ => false end.

(** Ports are treated in the order of their names, the entered one first
    (2358-2368). *)
Definition port_order (n : nat) (next : option nat) : list nat :=
  match next with
  | None => seq 0 n
  | Some j => j :: filter (fun i => negb (i =? j)) (seq 0 n)
  end.
Definition skipped (k : kind) (ch i : nat) : bool :=
  match k with KHex _ => negb (i / 2 =? ch) | _ => false end.

(** [_recursive_topology] of part [p]; [go] is the same function for deeper
    calls. *)
Fixpoint ports_loop (go : nat -> port -> nat -> side -> topo -> res topo)
  (N : design) (root : nat) (sub : bool) (p : nat) (par : option port) (ch : nat)
  (l : list nat) (sd : side) (st : topo) : res topo :=
  match l with
  | [] => Done st
  | i :: r =>
      if is_solved st (p, i) then ports_loop go N root sub p par ch r sd st
      else if skipped (kd N p) ch i then ports_loop go N root sub p par ch r sd st
      else
        let sd := match par with
                  | None => if sub then sd else if i =? 1 then Pressure else Suction
                  | Some _ => sd
                  end in
        match ask N st root sd (p, i) par with
        | None => Raised
        | Some a =>
            let st := record st (p, i) a in
            if (match par with Some _ => breaks N st p | None => false end) then Done st
            else if negb (limits_ok N p a) then Raised
            else
              match link N (p, i) with
              | None => ports_loop go N root sub p par ch r sd st
              | Some (q, j) =>
                  if is_solved st (q, j) then ports_loop go N root sub p par ch r sd st
                  else if (is_pump N q && negb (q =? root))%bool then Raised
                  else if in_hydr N st q then
                    match go q (p, i) j sd st with
                    | Done st => ports_loop go N root sub p par ch r sd st
                    | e => e
                    end
                  else ports_loop go N root sub p par ch r sd st
              end
        end
  end.

Fixpoint recurse (fuel : nat) (N : design) (root : nat) (sub : bool)
  (p : nat) (par : option port) (next : option nat) (sd : side) (st : topo) : res topo :=
  match fuel with
  | O => OutOfFuel
  | S fuel =>
      if in_hydr N st p then
        ports_loop (fun q x j => recurse fuel N root sub q (Some x) (Some j))
                   N root sub p par (match next with Some j => j / 2 | None => 0 end)
                   (port_order (nports (kd N p)) next) sd st
      else Done st
  end.

Definition count_ports (N : design) : nat :=
  fold_right Nat.add 0 (map (fun p => nports (kd N p)) (seq 0 (nparts N))).
Definition fuel_for (N : design) : nat := S (S (count_ports N)).

Definition bind {A B} (r : res A) (f : A -> res B) : res B :=
  match r with Done a => f a | Raised => Raised | OutOfFuel => OutOfFuel end.

(** 2198-2203. *)
Definition start (N : design) : topo :=
  {| solved := fun p => match kd N p with
                        | KHex _ => if external N p then [2; 3] else []
                        | _ => [] end;
     view := fun _ => None; out := [] |}.
Definition pump_nets (N : design) : res topo :=
  fold_left (fun r p => bind r (fun st =>
    if is_pump N p then recurse (fuel_for N) N p false p None None Suction st else Done st))
    (seq 0 (nparts N)) (Done (start N)).

(** 2217-2282. *)
Definition candidate (N : design) (st : topo) (p : nat) : bool :=
  (breaks N st p && (open N st p =? 1))%bool.
Definition sub_nets (N : design) (sched : list nat) (st : topo) : res topo :=
  fold_left (fun r p => bind r (fun st =>
    if candidate N st p then recurse (fuel_for N) N p true p None None Sub st else Done st))
    sched (Done st).

(** 2303-2323: parts left over must be storages. *)
Definition left_over_ok (N : design) (st : topo) : bool :=
  forallb (fun p => match kd N p with KHub true _ => true | _ => open N st p =? 0 end)
          (seq 0 (nparts N)).

(** The loops end when no candidate is left. *)
Definition exhausted (N : design) (st : topo) : bool :=
  forallb (fun p => negb (candidate N st p)) (seq 0 (nparts N)).

Definition topology (N : design) (sched : list nat) : res topo :=
  bind (pump_nets N) (fun st =>
  bind (sub_nets N sched st) (fun st =>
  if left_over_ok N st then Done st else Raised)).
