(** Model of adding ports to parts and of connecting ports.

    Code: /repo/multisim/simenv.py [_add_ports] (902-1084; the copy in parts/tes.py 629-815 is the
    same without positions by distance), [connect_ports] (1903-1942), [_connect_ports]
    (1944-2143), [_check_unconnected_ports] (2145-2166), the counters of ports (839, 1301) and the
    check before adding controls (1647-1654), the order of the postponed calls (4383-4430).

    Simplifications: a port is identified by the pair of names (the code joins them with ';');
    the state of the ports of a part is the port positions, names and flow labels; a failed
    assertion or raised exception is [None]; global port ids are not modelled beside the
    dictionary of links since they map one to one to ports. *)
From Coq Require Import Reals List Arith ZArith String Bool.
Import ListNotations.
Open Scope R_scope.

(** * Adding ports *)

(** Python's [round]: half to even. *)
Definition rnd (x : R) : Z :=
  let f := Int_part x in
  let d := x - IZR f in
  if Rlt_dec d (1 / 2) then f
  else if Rlt_dec (1 / 2) d then (f + 1)%Z
  else if Z.even f then f else (f + 1)%Z.

(** Clip to the cells of the grid (1041-1047). *)
Definition clip (n : nat) (z : Z) : nat :=
  if (Z.of_nat n <=? z)%Z then (n - 1)%nat else if (z <? 0)%Z then O else Z.to_nat z.

Inductive position : Set :=
| ByIndex : Z -> position
| ByVolume : R -> position
| ByDistance : R -> position.

(** Grid with [gp] cells of volume [vcell], total length [len]. *)
Record grid := { gp : nat; vcell : R; len : R }.

(** Cell of a new port (962-1047); [None] when the position is refused. *)
Definition resolve (g : grid) (p : position) : option nat :=
  match p with
  | ByIndex i =>
      if ((-1 <=? i) && (i <=? Z.of_nat (gp g) - 1))%Z
      then Some (clip (gp g) (if (i =? -1)%Z then (Z.of_nat (gp g) - 1)%Z else i))
      else None
  | ByVolume v =>
      if Rle_dec 0 v then if Rle_dec v (vcell g * INR (gp g))
      then Some (clip (gp g) (rnd ((v - (vcell g / 2 - 1 / 1000000000)) / vcell g)))
      else None else None
  | ByDistance d =>
      if Rle_dec 0 d then if Rle_dec d (len g)
      then let z := Int_part (d / len g * INR (gp g) - 1 / 1000000000) in
           Some (clip (gp g) (if (z <? 0)%Z then 0%Z else z))
      else None else None
  end.

(** Ports of a part: cell, name and label of each port ([true] is 'in'). *)
Record ports := { cells : list nat; names : list string; labels : list bool }.

(** [np.searchsorted] (left) on a sorted array. *)
Fixpoint searchsorted (l : list nat) (v : nat) : nat :=
  match l with
  | [] => O
  | x :: l => if (x <? v)%nat then S (searchsorted l v) else O
  end.
Definition insert_at {A : Type} (i : nat) (x : A) (l : list A) : list A :=
  firstn i l ++ x :: skipn i l.

(** Insertion of one port (1064-1080). *)
Definition add_port (p : ports) (key : string) (c : nat) : ports :=
  let i := searchsorted (cells p) c in
  {| cells := insert_at i c (cells p);
     names := insert_at i key (names p);
     labels := labels p ++ [true] |}.

(** All new ports in the order of the dictionary; all or nothing, since the exception leaves the
    part unbuilt. *)
Fixpoint add_ports (g : grid) (p : ports) (new : list (string * position)) : option ports :=
  match new with
  | [] => Some p
  | (key, pos) :: new =>
      match resolve g pos with
      | Some c => add_ports g (add_port p key c) new
      | None => None
      end
  end.

(** Index of a name, Python's [tuple.index] (first match). *)
Fixpoint index_of (key : string) (l : list string) : option nat :=
  match l with
  | [] => None
  | x :: l => if string_dec x key then Some O
              else match index_of key l with Some i => Some (S i) | None => None end
  end.
(** Cell and label of a port looked up by its name (e.g. 2009, 3804). *)
Definition cell_of (p : ports) (key : string) : option nat :=
  match index_of key (names p) with Some i => nth_error (cells p) i | None => None end.
Definition label_of (p : ports) (key : string) : option bool :=
  match index_of key (names p) with Some i => nth_error (labels p) i | None => None end.

(** * Connecting ports *)

Inductive pkey : Set :=
| Port : string -> string -> pkey   (* part, port *)
| BC : string -> pkey.              (* 'BoundaryCondition', name *)
Definition pkey_eq : forall a b : pkey, {a = b} + {a <> b}.
Proof. decide equality; apply string_dec. Defined.
Definition mem (a : pkey) (l : list pkey) : bool := if in_dec pkey_eq a l then true else false.
Definition is_port (a : pkey) : bool := match a with Port _ _ => true | BC _ => false end.

(** Links ([port_links]), ports marked as connected at their parts ([_ports_connected]), counter
    [_num_conn_ports]. *)
Record net := { link : pkey -> option pkey; connected : list pkey; num_conn : nat }.
Definition net0 : net := {| link := fun _ => None; connected := []; num_conn := 0 |}.
Definition upd (f : pkey -> option pkey) (a b : pkey) : pkey -> option pkey :=
  fun x => if pkey_eq x a then Some b else f x.

(** [_connect_ports]; [all] are the ports of all parts and the open ports. *)
Definition connect (all : list pkey) (s : net) (a b : pkey) : option net :=
  if (is_port a && mem a (connected s))%bool then None
  else if (is_port b && mem b (connected s))%bool then None
  else if mem a all then if mem b all then
    Some {| link := upd (upd (link s) a b) b a;
            connected := connected s ++ filter is_port [a; b];
            num_conn := num_conn s + 2 |}
  else None else None.

Fixpoint connect_all (all : list pkey) (s : net) (l : list (pkey * pkey)) : option net :=
  match l with
  | [] => Some s
  | (a, b) :: l => match connect all s a b with
                   | Some s => connect_all all s l
                   | None => None
                   end
  end.

(** The postponed calls are kept in a dictionary whose key is the first port: a second request
    with the same first port replaces the value of the first one in its place. *)
Fixpoint request (d : list (pkey * pkey)) (a b : pkey) : list (pkey * pkey) :=
  match d with
  | [] => [(a, b)]
  | (x, y) :: d => if pkey_eq x a then (x, b) :: d else (x, y) :: request d a b
  end.
Definition requests (l : list (pkey * pkey)) : list (pkey * pkey) :=
  fold_left (fun d r => request d (fst r) (snd r)) l [].

(** [_check_unconnected_ports]: the ports reported. *)
Definition unconnected (all : list pkey) (s : net) : list pkey :=
  filter (fun a => match link s a with Some _ => false | None => true end) all.

(** Connecting at initialisation: all requests, then the check. *)
Definition init_connections (all : list pkey) (l : list (pkey * pkey)) : option net :=
  match connect_all all net0 (requests l) with
  | Some s => match unconnected all s with [] => Some s | _ => None end
  | None => None
  end.

(** The assertion before a control is added (1654). *)
Definition control_allowed (all : list pkey) (s : net) : bool :=
  (List.length all =? num_conn s)%nat.
