(** Model of what is recorded while a simulation environment is described, and of what is kept in the
    result file.

    Code: /repo/multisim/simenv.py [add_part] (710-772), [add_open_port] (1102-1128), [connect_ports]
    (1926-1942), [add_control] (1619-1643), [_check_isadded] (5706-5717), [_call_postponed] (4382-4430, the
    order of the stages), [_compress_store] (5438-5530), [_free_memory] (5287-5322, shapes).

    Simplifications: names are numbers; the arguments of a call other than name, [grid_points] and
    [store_results] are one number [args]; [store_results] given as slice is the range of its first and
    last cell; a table is its number of columns (a table of three dimensions is flattened by rows, 5375-5393,
    hence has [a * b] columns); the keys of the temporary store are grouped by part. *)
From Coq Require Import List ZArith Bool Arith.
Import ListNotations.

(** ** The argument [store_results] *)
Inductive want := Whole (b : bool) | Cell (z : Z) | Cells (l : list Z) | Range (a b : nat).

(** Python's truth value, 722: 0, False and empty lists are false, slices are true. *)
Definition truth (w : want) : bool :=
  match w with
  | Whole b => b
  | Cell z => negb (z =? 0)%Z
  | Cells l => negb (length l =? 0)%nat
  | Range _ _ => true
  end.

(** 717-722, what [store_results] becomes; [None] for a part without [grid_points]. *)
Definition reduced (gp : option Z) (w : want) : want :=
  match gp with None => Whole (truth w) | Some _ => w end.
(** 738-759: is it accepted? *)
Definition accept (gp : option Z) (w : want) : bool :=
  match gp, w with
  | Some n, Cell z => (z <? n)%Z
  | Some n, Cells l => forallb (fun z => (z <? n)%Z) l
  | _, _ => true
  end.
(** 739, 759: a rejected single cell has already been recorded, a rejected list has not. *)
Definition recorded_first (w : want) : bool := match w with Cells _ => false | _ => true end.

(** ** Recording the description *)
Definition name := nat.
Inductive call :=
  | AddPart (n : name) (gp : option Z) (w : want) (args : nat)
  | AddOpenPort (n : name) (args : nat)
  | Connect (first : name * name) (scnd : name * name)
  | AddControl (n : name) (args : nat).

(** The ordered dictionaries [__postpone[...]], without the dictionaries of the second stage which have the
    same keys, and [_disk_store_parts]. *)
Record desc := Desc {
  parts : list (name * (option Z * nat));
  opens : list (name * nat);
  conns : list ((name * name) * (name * name));
  ctrls : list (name * nat);
  stored : list (name * want) }.
Definition empty : desc := Desc [] [] [] [] [].

(** Python's [d[k] = v]: the place of an old key is kept. *)
Fixpoint put {K V} (eqb : K -> K -> bool) (k : K) (v : V) (d : list (K * V)) : list (K * V) :=
  match d with
  | [] => [(k, v)]
  | (k', v') :: r => if eqb k k' then (k, v) :: r else (k', v') :: put eqb k v r
  end.
Definition has {V} (k : name) (d : list (name * V)) : bool := existsb (fun e => (fst e =? k)%nat) d.
Definition port_eqb (p q : name * name) : bool := ((fst p =? fst q) && (snd p =? snd q))%nat%bool.

(** One call: what is recorded, and whether it went through (otherwise it raised). *)
Definition record (d : desc) (c : call) : desc * bool :=
  match c with
  | AddPart n gp w a =>
      let w' := reduced gp w in
      let put_stored := put Nat.eqb n w' (stored d) in
      if accept gp w' then
        if has n (parts d)
        then (Desc (parts d) (opens d) (conns d) (ctrls d) put_stored, false)
        else (Desc (parts d ++ [(n, (gp, a))]) (opens d) (conns d) (ctrls d) put_stored, true)
      else (Desc (parts d) (opens d) (conns d) (ctrls d)
                 (if recorded_first w' then put_stored else stored d), false)
  | AddOpenPort n a =>
      if has n (opens d) then (d, false)
      else (Desc (parts d) (opens d ++ [(n, a)]) (conns d) (ctrls d) (stored d), true)
  | Connect p q => (Desc (parts d) (opens d) (put port_eqb p q (conns d)) (ctrls d) (stored d), true)
  | AddControl n a =>
      if has n (ctrls d) then (d, false)
      else (Desc (parts d) (opens d) (conns d) (ctrls d ++ [(n, a)]) (stored d), true)
  end.
(** A script which goes on after calls that raised (in a notebook, say). *)
Definition describe (cs : list call) : desc := fold_left (fun d c => fst (record d c)) cs empty.
(** A script which ends with the first call that raises. *)
Fixpoint script (d : desc) (cs : list call) : option desc :=
  match cs with
  | [] => Some d
  | c :: r => if snd (record d c) then script (fst (record d c)) r else None
  end.

(** 4382-4430: the stages in which the description is carried out. *)
Inductive action :=
  | DoPart (n : name) (gp : option Z) (args : nat) | InitPart (n : name)
  | DoOpen (n : name) (args : nat) | DoConnect (p q : name * name)
  | DoControl (n : name) (args : nat) | InitControl (n : name).
Definition actions (d : desc) : list action :=
  map (fun e => DoPart (fst e) (fst (snd e)) (snd (snd e))) (parts d)
  ++ map (fun e => InitPart (fst e)) (parts d)
  ++ map (fun e => DoOpen (fst e) (snd e)) (opens d)
  ++ map (fun e => DoConnect (fst e) (snd e)) (conns d)
  ++ map (fun e => DoControl (fst e) (snd e)) (ctrls d)
  ++ map (fun e => InitControl (fst e)) (ctrls d).

(** ** The result file *)
(** pandas [iloc] with a list: one column, counted from the end if negative; [None] is an IndexError. *)
Definition column (cols : nat) (z : Z) : option nat :=
  if (0 <=? z)%Z then if (z <? Z.of_nat cols)%Z then Some (Z.to_nat z) else None
  else if (- Z.of_nat cols <=? z)%Z then Some (Z.to_nat (Z.of_nat cols + z)) else None.
Fixpoint columns (cols : nat) (l : list Z) : option (list nat) :=
  match l with
  | [] => Some []
  | z :: r => match column cols z, columns cols r with Some c, Some cs => Some (c :: cs) | _, _ => None end
  end.

(** 5450-5472: the columns of one table which are written; [None] is an IndexError, [Some None] means
    that the table is left out. *)
Definition kept (w : want) (cols : nat) : option (option (list nat)) :=
  match w with
  | Whole false => Some None
  | Whole true => Some (Some (seq 0 cols))
  | _ =>
      if (cols =? 1)%nat then Some (Some (seq 0 cols))
      else match w with
           | Cell z => option_map Some (columns cols [z])
           | Cells l => option_map Some (columns cols l)
           | Range a b => Some (Some (seq a (min b cols - a)))
           | Whole _ => Some None
           end
  end.

(** The tables of a part in the temporary store: its number of columns each. *)
Definition table := (name * nat)%type.
(** 5438-5530: the result file; [None] if the run ends with an IndexError, in which case the file has been
    created, but is not complete, and the results are not available. *)
Fixpoint file (compress : bool) (sel : name -> want) (tabs : list table)
  : option (list (name * option (list nat))) :=
  match tabs with
  | [] => Some []
  | (n, cols) :: r =>
      match (if compress then kept (sel n) cols else Some (Some (seq 0 cols))), file compress sel r with
      | Some k, Some f => Some ((n, k) :: f)
      | _, _ => None
      end
  end.

(** ** Longer runs without result file, 5287-5322 *)
Definition shape := list nat.
(** numpy's [append(a, b, axis=0)] *)
Definition append_rows (a b : shape) : option shape :=
  match a, b with
  | x :: s, y :: t => if list_eq_dec Nat.eq_dec s t then Some (x + y :: s)%nat else None
  | _, _ => None
  end.
(** 5309-5319: room for [more] further steps. *)
Definition enlarge (more : nat) (res : shape) : option shape :=
  append_rows res [more; nth 1 res 0%nat].
(** [_initialize_arrays], 4646-4665: steps the arrays have room for ([n] is the number of steps at the initial
    step size, [lim] the limit without result file) and the rows to add when they are full, which are only
    set with adaptive steps; [None]: AttributeError. *)
Definition room (adaptive : bool) (n lim : nat) : nat := min (if adaptive then 100 * n else n) lim.
Definition more_rows (adaptive : bool) (n : nat) : option nat := if adaptive then Some (100 * n + 1) else None.
(** 5086-5089, 5287-5322: is there room for all [steps] steps?  [None]: the run ends with an error. *)
Fixpoint room_for (fuel : nat) (more : option nat) (steps : nat) (res : shape) : option shape :=
  if (steps <? nth 0 res 0)%nat then Some res
  else match fuel, more with
       | S k, Some m => match enlarge m res with Some r => room_for k more steps r | None => None end
       | _, _ => None
       end.
(** heated_pipe.py 194-195, chp_plant.py 561-565, simenv.py 4695-4701: records of heating power, electric power, gas
    and state are made with the rows the run starts with; 5287-5322 enlarges the temperatures and flows only (the
    method [_special_free_memory] is called with a result file only, 5411). *)
Definition extra_records (adaptive : bool) (n lim : nat) (cells : list nat) : list shape :=
  map (fun c => [room adaptive n lim + 1; c]%nat) cells.
Definition records_room (fuel : nat) (more : option nat) (steps : nat) (res : shape) (extra : list shape)
  : option (shape * list shape) :=
  match room_for fuel more steps res with
  | Some r => if forallb (fun e => steps <? nth 0 e 0)%nat extra then Some (r, extra) else None
  | None => None
  end.
