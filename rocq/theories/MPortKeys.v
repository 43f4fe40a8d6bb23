(** Names of parts and ports as keys of the connections.

    Code: /repo/multisim/simenv.py [add_part] (771-772), [_add_part] (792-828), [_add_open_port]
    (1255-1297, 1306-1310), [connect_ports] (1927-1942), [_connect_ports] (1944-2143),
    [_check_unconnected_ports] (2145-2164), [_call_postponed] (4381-4422) and the reading of the
    neighbour of a port in [_topology_construction] (2503-2515) and in the parts (for example
    parts/pipe.py 622-634).

    A port of a part is known by the string "part;port" and is taken apart again at ";".

    Simplifications: a part is its name and the names of its ports; only the checks which read names
    are kept (solver and timeframe set, kinds of the arguments and the temperature of an open port are
    other properties); ids of ports are not kept (C40).  The names of the parts and of the open ports
    given are pairwise different ([_check_isadded], 5695-5719).  Exceptions are told apart only by
    their cause. *)
From Coq Require Import List String Ascii Bool.
Import ListNotations.
Local Open Scope string_scope.
Local Open Scope list_scope.

(** Python: [c in s] for one character *)
Fixpoint has (c : ascii) (s : string) : bool :=
  match s with EmptyString => false | String a r => Ascii.eqb a c || has c r end.

(** Python: [s.split(';')] *)
Fixpoint split (s : string) : list string :=
  match s with
  | EmptyString => [""]
  | String a r =>
      if Ascii.eqb a ";" then "" :: split r
      else match split r with h :: t => String a h :: t | [] => [String a ""] end
  end.

(** simenv.py 823, 1935, 2106-2111: [part + ';' + port] *)
Definition join (pa po : string) : string := (pa ++ String ";" po)%string.

(** simenv.py 2152: [pa, po = part_port.split(';')]; None: ValueError *)
Definition unpack (s : string) : option (string * string) :=
  match split s with [pa; po] => Some (pa, po) | _ => None end.

(** A Python dictionary: in the order of the first insertion of each key *)
Fixpoint dset {K V} (eqb : K -> K -> bool) (d : list (K * V)) (k : K) (v : V) : list (K * V) :=
  match d with
  | [] => [(k, v)]
  | (k', v') :: r => if eqb k k' then (k, v) :: r else (k', v') :: dset eqb r k v
  end.
Fixpoint dget {K V} (eqb : K -> K -> bool) (d : list (K * V)) (k : K) : option V :=
  match d with [] => None | (k', v) :: r => if eqb k k' then Some v else dget eqb r k end.

(** simenv.py 797-801: the check of the name of a part *)
Definition part_name_ok (n : string) : bool := negb (String.eqb n "BC") && negb (has "/" n).

(** simenv.py 1261: the check of the name of an open port *)
Definition open_name_ok (n : string) : bool := String.eqb (substring 0 3 n) "BC_".

(** a call of [connect_ports]: first part, first port, second part, second port *)
Record request := { fp : string; fq : string; sp : string; sq : string }.

(** what is described: parts with their ports, open ports and connections *)
Record description := {
  d_parts : list (string * list string);
  d_opens : list string;
  d_requests : list request
}.

Inductive cause :=
| CPart (n : string)                  (* 798, 1267: a name is refused *)
| CUnknown (n : string)               (* 1965-1974: not a part *)
| CTaken (pa po : string)             (* 1984-2005: connected before *)
| CPort (pa po : string)              (* 2011-2098: no such port or open port *)
| COpen (l : list (string * string)). (* 2166: ports left open *)

(** what the user sees: the neighbour of each port of each part, or why there is none *)
Inductive outcome :=
| Ready (v : list (string * string * option (string * string)))
| Refused (c : cause)
| Unpacking                           (* 2152: ValueError of the unpacking *)
| Debugger.                           (* 1996: breakpoint() *)

Definition bc : string := "BoundaryCondition".

(** simenv.py 1934-1942: the postponed connections; one with the same first port is replaced *)
Definition postponed (rs : list request) : list (string * request) :=
  fold_left (fun d r => dset String.eqb d (join (fp r) (fq r)) r) rs [].

(** simenv.py 822-828: the keys of the ports of a part *)
Definition part_ports (p : string * list string) (d : list (string * unit)) : list (string * unit) :=
  fold_left (fun d po => dset String.eqb d (join (fst p) po) tt) (snd p) d.

(** simenv.py 1261-1268, 1296: the open ports one after the other *)
Fixpoint add_opens (d : list (string * unit)) (l : list string) : list (string * unit) + string :=
  match l with
  | [] => inl d
  | n :: r =>
      if negb (open_name_ok n) then inr n
      else match dget String.eqb d n with
           | Some _ => inr n
           | None => add_opens (dset String.eqb d (join bc n) tt) r
           end
  end.

(** what [_connect_ports] changes: [port_links] and the lists [_ports_connected] of the parts *)
Record cstate := { links : list (string * string); conn : list (string * string) }.

Definition mem (x : string) (l : list string) : bool := existsb (String.eqb x) l.
Definition memp (p q : string) (l : list (string * string)) : bool :=
  existsb (fun x => String.eqb p (fst x) && String.eqb q (snd x)) l.

(** simenv.py 2011-2057 and 2057-2098: is the port there? *)
Definition port_there (d : description) (p q : string) : bool :=
  if String.eqb p bc then mem q (d_opens d)
  else match dget String.eqb (d_parts d) p with Some l => mem q l | None => false end.

(** simenv.py 1964-2143 *)
Definition connect (d : description) (r : request) (s : cstate) : cstate + outcome :=
  let isbc p := String.eqb p bc in
  let known p := isbc p || mem p (map fst (d_parts d)) in
  if negb (known (fp r)) then inr (Refused (CUnknown (fp r)))
  else if negb (known (sp r)) then inr (Refused (CUnknown (sp r)))
  else if negb (isbc (fp r)) && memp (fp r) (fq r) (conn s) then inr (Refused (CTaken (fp r) (fq r)))
  else if String.eqb (sp r) "p_gasb1_ff" then inr Debugger
  else if negb (isbc (sp r)) && memp (sp r) (sq r) (conn s) then inr (Refused (CTaken (sp r) (sq r)))
  else if negb (port_there d (fp r) (fq r)) then inr (Refused (CPort (fp r) (fq r)))
  else if negb (port_there d (sp r) (sq r)) then inr (Refused (CPort (sp r) (sq r)))
  else
    let l := dset String.eqb (links s) (join (fp r) (fq r)) (join (sp r) (sq r)) in
    let l := dset String.eqb l (join (sp r) (sq r)) (join (fp r) (fq r)) in
    let c := if isbc (fp r) then conn s else conn s ++ [(fp r, fq r)] in
    let c := if isbc (sp r) then c else c ++ [(sp r, sq r)] in
    inl {| links := l; conn := c |}.

(** simenv.py 4417-4419 *)
Fixpoint connect_all (d : description) (rs : list request) (s : cstate) : cstate + outcome :=
  match rs with
  | [] => inl s
  | r :: t => match connect d r s with inl s' => connect_all d t s' | inr o => inr o end
  end.

(** simenv.py 2151-2155: the ports which are left open; None: ValueError *)
Fixpoint missing (l : list (string * string)) (ports : list string) : option (list (string * string)) :=
  match ports with
  | [] => Some []
  | k :: r =>
      match unpack k with
      | None => None
      | Some pp =>
          match missing l r with
          | None => None
          | Some m => Some (match dget String.eqb l k with Some _ => m | None => pp :: m end)
          end
      end
  end.

(** simenv.py 2504-2513, parts/pipe.py 624-634: the neighbour read from [port_links]; None: KeyError *)
Definition neighbour (l : list (string * string)) (pa po : string) : option (string * string) :=
  match dget String.eqb l (join pa po) with
  | Some k => Some (nth 0 (split k) "", nth 1 (split k) "")
  | None => None
  end.

Definition view (d : description) (l : list (string * string))
  : list (string * string * option (string * string)) :=
  flat_map (fun p => map (fun po => (fst p, po, neighbour l (fst p) po)) (snd p)) (d_parts d).

(** simenv.py 4381-4422 *)
Definition build (d : description) : outcome :=
  match find (fun p => negb (part_name_ok (fst p))) (d_parts d) with
  | Some p => Refused (CPart (fst p))
  | None =>
      match add_opens (fold_left (fun k p => part_ports p k) (d_parts d) []) (d_opens d) with
      | inr n => Refused (CPart n)
      | inl ports =>
          match connect_all d (map snd (postponed (d_requests d))) {| links := []; conn := [] |} with
          | inr o => o
          | inl s =>
              match missing (links s) (map fst ports) with
              | None => Unpacking
              | Some [] => Ready (view d (links s))
              | Some m => Refused (COpen m)
              end
          end
      end
  end.
