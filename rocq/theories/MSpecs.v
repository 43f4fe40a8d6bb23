(** Model of the port specifications of a part: [SimEnv._get_specs_n_props], multisim/simenv.py
    3394-3676, the part on [pipe_specs] (lines 3474-3676), with [_get_arr_idx] for
    [target='port_specs'] (simenv.py 2967-2976, 3110-3120).
    Simplifications: parts with collapsed one-dimensional port arrays (all parts in the code
    set [_collapsed]); [None] stands for an exception; the information dictionary is left out.  The
    float an 'all' specification leaves in numeric parts is represented by an array of equal values. *)
From Coq Require Import Reals List String Arith Bool.
From Verif Require Import MFlow.
Import ListNotations.
Open Scope string_scope.

(** The value of one key of [pipe_specs]. *)
Record spec := { sp_type : option string; sp_dn : option string; sp_A : option R; sp_w : option R }.

(** The table of pipes: columns are labelled with (pipe type, nominal diameter); [A_i], [A_wall]
    of each column; labels of the rows. *)
Record table := { tb_cols : list (string * string * (R * R)); tb_rows : list string }.
Definition has_type (t : table) (ty : string) : bool :=
  existsb (fun c => String.eqb (fst (fst c)) ty) (tb_cols t).
(** [table[ty, dn]]: column lookup. *)
Definition column (t : table) (ty dn : string) : option (R * R) :=
  option_map snd (find (fun c => (String.eqb (fst (fst c)) ty && String.eqb (snd (fst c)) dn)%bool) (tb_cols t)).
(** [table.loc[ty, dn]]: [.loc] takes the row label first, so [ty] must be the label of a row
    and [dn] select columns; then a Series ['A_wall'] of that row.  No row: KeyError.  A row of that
    name would give a value which is no area; it is left open by the argument [odd]. *)
Definition loc (odd : option (R * R)) (t : table) (ty dn : string) : option (R * R) :=
  if existsb (String.eqb ty) (tb_rows t) then odd else None.

(** Lines 3483-3490: each value names a pipe type and a nominal diameter or both areas. *)
Definition spec_complete (s : spec) : bool :=
  match sp_type s with
  | None => false
  | Some _ => match sp_dn s with Some _ => true
              | None => match sp_A s, sp_w s with Some _, Some _ => true | _, _ => false end end
  end.

(** Lines 3495-3556: type known, and nominal diameter known if given. *)
Definition spec_known (t : table) (s : spec) : bool :=
  match sp_type s with
  | None => false
  | Some ty => (has_type t ty &&
      match sp_dn s with None => true
      | Some dn => match column t ty dn with Some _ => true | None => false end end)%bool
  end.

(** [port_names.index(port)], after the assertion that the port exists. *)
Fixpoint index (ns : list string) (p : string) : option nat :=
  match ns with
  | [] => None
  | x :: r => if String.eqb x p then Some O else option_map S (index r p)
  end.

(** Areas (fluid, wall) of one specification, by column or by row lookup. *)
Definition areas (get : string -> string -> option (R * R)) (s : spec) : option (R * R) :=
  match sp_type s, sp_dn s, sp_A s, sp_w s with
  | Some ty, Some dn, _, _ => get ty dn
  | Some _, None, Some a, Some w => Some (a, w)
  | _, _, _, _ => None
  end.

Definition ports2 := nat -> R * R.

(** The loop of lines 3493-3667. *)
Fixpoint specs_loop (odd : option (R * R)) (t : table) (ns : list string) (only_all : bool)
  (l : list (string * spec)) (st : ports2) : option ports2 :=
  match l with
  | [] => Some st
  | (k, s) :: r =>
    if spec_known t s then
      if only_all
      then match areas (column t) s with Some v => specs_loop odd t ns only_all r (fun _ => v) | None => None end
      else match index ns k with
           | None => None
           | Some i => match areas (loc odd t) s with
             | Some v => specs_loop odd t ns only_all r (fun j => if (j =? i)%nat then v else st j)
             | None => None end end
    else None
  end.

(** [_get_specs_n_props(pipe_specs=l)] for a part with ports [ns]; a dictionary has each key once. *)
Definition get_specs (odd : option (R * R)) (t : table) (ns : list string) (l : list (string * spec)) : option ports2 :=
  if forallb (fun p => spec_complete (snd p)) l then
    let has_all := existsb (fun p => String.eqb (fst p) "all") l in
    let only_all := (has_all && (List.length l =? 1)%nat)%bool in
    match specs_loop odd t ns only_all l (fun _ => (0%R, 0%R)) with
    | None => None
    | Some st => if (has_all || (List.length l =? List.length ns)%nat)%bool then Some st else None
    end
  else None.
