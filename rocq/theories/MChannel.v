(** Search for the flow channel of a connected port by name.

    Code modelled: /repo/multisim/simenv.py 2547-2563 (the loop over
    [_flow_channels] in _recursive_topology), 2381-2384 (ports of other channels
    are skipped), 3016-3019, 3043-3046 and 3100-3103 (the loops over
    [_flow_channels] for the port's own name); the channels and ports of the heat
    exchangers: parts/heatexchanger.py 243-251, parts/hex_num.py 291-296,
    parts/hex_condensing_polynome.py 232-237.

    Simplification: Python strings are Coq strings of bytes. *)
From Coq Require Import String Ascii List Bool.
Import ListNotations.
Local Open Scope string_scope.

(** Python's [sub in s]. *)
Fixpoint contains (sub s : string) : bool :=
  prefix sub s || match s with EmptyString => false | String _ r => contains sub r end.

(** The last channel found wins; without any match the variable keeps its old
    value or is unbound. *)
Definition find_channel (channels : list string) (s : string) : option string :=
  fold_left (fun r fc => if contains fc s then Some fc else r) channels None.

(** "part;port". *)
Definition full_name (part port : string) : string := part ++ ";" ++ port.

(** 2547-2563. *)
Definition entered_channel (channels : list string) (part port : string) : option string :=
  find_channel channels (full_name part port).
(** 3016-3019. *)
Definition own_channel (channels : list string) (port : string) : option string :=
  find_channel channels port.
(** 2381-2384. *)
Definition treated (channel port : string) : bool := contains channel port.

Definition hex_channels : list string := ["sup"; "dmd"].
Definition hex_ports : list string := ["sup_in"; "sup_out"; "dmd_in"; "dmd_out"].
Definition cond_channels : list string := ["water"; "fluegas"].
Definition cond_ports : list string := ["water_in"; "water_out"; "fluegas_in"; "fluegas_out"].
