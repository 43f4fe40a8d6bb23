(** * Dictionaries that several calls share.

    Code modelled:
    - _utility/plotting.py 20-185 [heatmap_from_df]: the dictionaries [plt_kwds] and [cbar_kwds] (default values of
      parameters are made once, when the function is defined, lines 35-36), lines 126-127, 133-144, 146-156, 167
    - parts/part_modules/suppliers.py 121-125 [chp_with_fghex] and chp_with_fluegas_hex.py 95-97
      [add_chp_with_fghex]: pipe of the plant, [chp_kwds] and its default values (22-35 in both)

    Simplifications: values are texts; everything else these functions do is left out. *)
From Coq Require Import String List Bool.
From Verif Require Import MReturn.
Import ListNotations.
Open Scope string_scope.

Definition dict := list (string * string).
Definition drop (n : string) (d : dict) : dict := filter (fun e => negb (fst e =? n)) d.

(** One call of [heatmap_from_df]; [None]: the argument is left out. *)
Record heat_call := mkHeat { h_plt : option dict; h_cbar : option dict; h_log : bool; h_over : bool; h_under : bool }.
(** What the drawing functions are given: keywords for the map and for the colour bar. *)
Definition drawn := (dict * dict)%type.
Definition heat_plt (c : heat_call) (d : dict) : dict := if h_log c then put "norm" "LogNorm" d else d.
Definition heat_cbar (c : heat_call) (d : dict) : dict :=
  let d := if h_over c then put "extend" (if h_under c then "both" else "max") d else d in
  if h_under c then put "extend" (if h_over c then "both" else "min") d else d.
(** State: the two default dictionaries. *)
Definition heat (c : heat_call) (s : drawn) : drawn * drawn :=
  let p := heat_plt c (match h_plt c with Some d => d | None => fst s end) in
  let q := heat_cbar c (match h_cbar c with Some d => d | None => snd s end) in
  ((p, q), (match h_plt c with Some _ => fst s | None => p end, match h_cbar c with Some _ => snd s | None => q end)).
(** A program drawing several maps. *)
Fixpoint heats (cs : list heat_call) (s : drawn) : list drawn :=
  match cs with [] => [] | c :: r => fst (heat c s) :: heats r (snd (heat c s)) end.

(** The pipe of the plant and what is left of [chp_kwds]. *)
Definition chp_pipe (kwds : dict) : string * dict :=
  match find "pipe_specs" kwds with
  | Some p => (p, drop "pipe_specs" kwds)
  | None => ("DN80", kwds)
  end.
(** chp_with_fluegas_hex.py 95-97; [None]: KeyError. *)
Definition chp_pipe_old (kwds : dict) : option (string * dict) :=
  match find "pipe_specs" kwds with Some p => Some (p, drop "pipe_specs" kwds) | None => None end.
(** The default dictionary (lines 22-35), other values left out. *)
Definition chp_default : dict := [("heat_spread", "range"); ("pipe_specs", "DN80")].
(** Plants added one after another with the same dictionary. *)
Fixpoint chp_pipes (n : nat) (kwds : dict) : list string :=
  match n with 0 => [] | S n => fst (chp_pipe kwds) :: chp_pipes n (snd (chp_pipe kwds)) end.
