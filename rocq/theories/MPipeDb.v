(** Model of pipe specifications scaled from a table.

    Code: /repo/multisim/utility_functions.py [interp_pipe_specs] (451-496), [adjust_pipes] (499-538).

    Simplifications: real arithmetic; of the rows of the table the inner area (the index after 472) and the outer
    area are modelled, the other interpolated rows are treated like the outer area and d_i, d_o, s and A_wall are
    computed from the two areas; the rows of one pipe type are in the order of their inner area; scipy's cubic
    interpolation is any function [itp] of the known points and the wanted place; the table exists (its path is
    written with a backslash, so it is found on Windows only). *)
From Coq Require Import Reals List Bool Arith String.
Import ListNotations.
Open Scope R_scope.

(** Inner and outer area by nominal diameter. *)
Definition rows := list (string * (R * R)).
(** By pipe type. *)
Definition table := string -> rows.
Definition points := list (R * R).
Definition itpf := points -> R -> R.

Definition eqR (a b : R) : bool := if Req_EM_T a b then true else false.
Definition same (a b : R) : bool := eqR a b.

(** 461-475: one additional point on either side, from the ratio of the outermost two rows. *)
Definition extra (new : R) (outer inner : R * R) : R * R :=
  (new, snd outer * (new / fst outer * (snd outer / snd inner) / (fst outer / fst inner))).
Definition extended (l : points) : option points :=
  match l, rev l with
  | a :: b :: _, y :: x :: _ => Some (extra 1e-5 a b :: l ++ [extra 0.1 y x])
  | _, _ => None
  end.

(** 477-484: a row of NaN for every wanted area; [ps_tp.loc[ai] = nan] overwrites an existing row. *)
Definition kept (want : list R) (l : points) : points :=
  filter (fun p => (eqR (fst p) 1e-5 || eqR (fst p) 0.1 || negb (existsb (same (fst p)) want))%bool) l.
Definition inside (l : points) (a : R) : bool :=
  (existsb (fun p => if Rle_dec (fst p) a then true else false) l && existsb (fun p => if Rle_dec a (fst p) then true else false) l)%bool.

Record spec := mkSpec { s_Ai : R; s_Ao : R; s_di : R; s_do : R; s_s : R; s_wall : R }.
(** 486-494 *)
Definition finish (ai ao : R) : spec :=
  let di := sqrt (ai * 4 / PI) in
  let d_o := sqrt (ao * 4 / PI) in
  mkSpec ai ao di d_o ((d_o - di) / 2) (ao - ai).
(** [pipe_type] keeps its default, see [adjust].  [None]: the table has fewer than two rows, or the assertion of 495. *)
Definition interp_specs (itp : itpf) (t : table) (want : list R) : option (list spec) :=
  match extended (map snd (t "EN10255_medium"%string)) with
  | None => None
  | Some l =>
      if forallb (inside (kept want l)) want then
        Some (map (fun a => finish a (match find (fun p => same (fst p) a) (kept want l) with
                                      | Some p => snd p | None => itp (kept want l) a end)) want)
      else None
  end.

(** A request: the two entries of the reference dict in the order they were written, and the factor. *)
Record request := mkReq { q_keys : list (string * string); q_fac : R }.
(** [ps_table.loc['A_i', tuple(v[0]['all'].values())]], KeyError as [None]. *)
Definition table_area (t : table) (q : request) : option R :=
  match map snd (q_keys q) with
  | [ty; dn] => match find (fun r => String.eqb (fst r) dn) (t ty) with Some r => Some (fst (snd r)) | None => None end
  | _ => None
  end.
Fixpoint all_some {A} (l : list (option A)) : option (list A) :=
  match l with
  | [] => Some []
  | Some x :: r => match all_some r with Some r => Some (x :: r) | None => None end
  | None :: _ => None
  end.
(** 524-538 *)
Definition adjust (itp : itpf) (t : table) (qs : list request) : option (list spec) :=
  match all_some (map (fun q => match table_area t q with Some a => Some (a * q_fac q) | None => None end) qs) with
  | None => None
  | Some want => interp_specs itp t want
  end.
