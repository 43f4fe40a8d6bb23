(** Model of the assignment of a time series to a variable (SimEnv.assign_boundary_cond) and of the steps after it.

    Code: /repo/multisim/simenv.py: [assign_boundary_cond] (1330-1557): checks of the time stamps (1426-1470), open port
    (1474-1485), part (1487-1524), the pair of view and values (1558); [_create_diff_inputs] (4736-4770): the arguments of
    the step functions are taken from the attributes once, in initialize_sim; [_update_dyn_BC] (2717-2763): writing to the
    view; [start_sim] (5064-5077): order of flows, solver, control and boundary conditions; solver (3982, 4008): the
    temperatures of a step start from the results of the last one.

    Simplifications:
    - one part, one series; the value for each step is given (its calculation is in MBC.v);
    - arrays have one dimension;
    - the flow net ([pre]), the step function ([calc]) and everything that runs after the step and before the boundary
      conditions: port update, control ([post]) are arbitrary functions;
    - rejected steps of the solver, which repeat the same calculation with a smaller step, are not repeated here. *)
From Coq Require Import Reals List String ZArith.
Import ListNotations.
Local Open Scope Z_scope.

(** Attributes hold numbers or references to arrays; arrays live in a store. *)
Inductive pyval := Num (r : R) | Arr (id : nat).
Definition store := nat -> list R.
Inductive observed := ONum (r : R) | OArr (l : list R).
Definition look (h : store) (v : pyval) : observed := match v with Num r => ONum r | Arr id => OArr (h id) end.
Record view := mkV { v_arr : nat; v_from : nat; v_len : nat }.
Record world := mkW { heap : store; next : nat; attr : string -> option pyval; taken : list pyval }.
Definition put (h : store) (id : nat) (l : list R) : store := fun k => if Nat.eqb k id then l else h k.
Fixpoint set_nth (l : list R) (i : nat) (x : R) : list R :=
  match l, i with [], _ => [] | _ :: r, O => x :: r | a :: r, S i => a :: set_nth r i x end.

(** 4755-4762: the arguments, by the names in _input_arg_names_sorted; a missing one is a KeyError. *)
Fixpoint take (a : string -> option pyval) (names : list string) : option (list pyval) :=
  match names with
  | [] => Some []
  | s :: r => match a s, take a r with Some v, Some l => Some (v :: l) | _, _ => None end
  end.

(** A place of a slice of an array of length [n], as python takes it. *)
Definition place (n : nat) (i : Z) : nat := Z.to_nat (if i <? 0 then Z.max (i + Z.of_nat n) 0 else Z.min i (Z.of_nat n)).
Definition cut (id n : nat) (i : Z) : view := mkV id (place n i) (place n (i + 1) - place n i).
Definition setattr (a : string -> option pyval) (s : string) (v : pyval) : string -> option pyval :=
  fun t => if String.eqb t s then Some v else a t.

Inductive outcome := Rejected | Crashed | Accepted (w : world) (v : view).
(** 1487-1524: a variable of a part.  The message of line 1510 is made in advance and needs a number. *)
Definition assign_part (w : world) (var : string) (idx : option Z) : outcome :=
  match attr w var with
  | None => Rejected
  | Some v =>
      let '(w1, id) :=
        match v with
        | Arr id => (w, id)
        | Num r => (mkW (put (heap w) (next w) [r]) (S (next w)) (setattr (attr w) var (Arr (next w))) (taken w), next w)
        end in
      match idx with
      | None => Crashed
      | Some i => if i <? Z.of_nat (List.length (heap w1 id)) then Accepted w1 (cut id (List.length (heap w1 id)) i) else Rejected
      end
  end.

(** Writing a value to the view (2749, 2754): the first element of the view; an empty view gives an IndexError. *)
Definition write (h : store) (v : view) (x : R) : option store :=
  match v_len v with O => None | S _ => Some (put h (v_arr v) (set_nth (h (v_arr v)) (v_from v) x)) end.

Section Steps.
Variable T : nat.                                                    (* the array of the temperatures *)
Variable pre : store -> store.
Variable calc : list observed -> list R.
Variable post : list observed -> list R -> store -> store.
Variable args : list pyval.
Variable v : view.
Variable y : nat -> R.                                               (* the value for the end of each step *)

(** One step (5064-5077): flows, temperatures from the last results, step function with the arguments, port update and
    control, boundary condition.  The result: what the step function was given, the new results, the new store. *)
Definition one (k : nat) (last : list R) (h : store) : option (list observed * list R * store) :=
  let h1 := pre h in
  let h2 := put h1 T last in
  let o := map (look h2) args in
  let row := calc o in
  match write (post o row h2) v (y k) with Some h4 => Some (o, row, h4) | None => None end.
(** The first [n] steps: inputs and results of each, the latest first, and the store. *)
Fixpoint steps (n : nat) (init : list R) (h : store) : option (list (list observed * list R) * store) :=
  match n with
  | O => Some ([], h)
  | S m =>
      match steps m init h with
      | Some (tr, h1) =>
          match one m (match tr with [] => init | (_, r) :: _ => r end) h1 with Some (o, row, h2) => Some ((o, row) :: tr, h2) | None => None end
      | None => None
      end
  end.
End Steps.

(** The time stamps of a series in nanoseconds (1426-1470): the first series is kept in whole seconds (1467), the next
    ones are compared with it as they are (1446). *)
Definition kept (stamps : list Z) : list Z := map (fun t => t / 1000000000 * 1000000000) stamps.
Definition same_stamps (first next : list Z) : bool :=
  if list_eq_dec Z.eq_dec (kept first) next then true else false.
