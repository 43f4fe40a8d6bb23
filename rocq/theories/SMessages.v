(** * Vocabulary for C175: what a message has to show *)
From Coq Require Import List String Ascii Bool Arith ZArith.
From Verif Require Import MMessages.
Import ListNotations.
Local Open Scope string_scope.

(** No brace in the text. *)
Fixpoint brace_free (s : string) : Prop :=
  match s with
  | EmptyString => True
  | String c s' => c <> "{"%char /\ c <> "}"%char /\ brace_free s'
  end.

Definition contains (t s : string) : Prop := exists a b, t = a ++ s ++ b.

(** The text [t] shows the value [v]. *)
Definition shown (W : writer) (v : value) (t : string) : Prop :=
  match v with
  | VText s | VOther s => contains t s
  | VNum n => exists spec, contains t (W n spec)
  end.

Definition is_number (v : value) : Prop := exists n, v = VNum n.

(** Calls that need numbers, with the positions of the arguments that have to
    be numbers: the values printed with a given precision. *)
Definition needs_numbers : list (string * positive * list nat) := [
  ("_utility/plotting.py", 680%positive, [0]); ("_utility/plotting.py", 682%positive, [0]);
  ("_utility/plotting.py", 736%positive, [0]); ("_utility/plotting.py", 742%positive, [0]);
  ("_utility/plotting.py", 748%positive, [0]); ("_utility/plotting.py", 754%positive, [0]);
  ("parts/chp_plant.py", 88%positive, [2]); ("parts/chp_plant.py", 186%positive, [0; 1]);
  ("parts/chp_plant.py", 469%positive, [2]); ("parts/controllers.py", 1018%positive, [0]);
  ("parts/pump.py", 537%positive, [1]); ("simenv.py", 1509%positive, [0]);
  ("simenv.py", 3526%positive, [0; 1]); ("simenv.py", 4246%positive, [0]);
  ("utility_functions.py", 1951%positive, [0]); ("utility_functions.py", 2304%positive, [0]);
  ("utility_functions.py", 3239%positive, [0]); ("utility_functions.py", 3243%positive, [0]);
  ("utility_functions.py", 3247%positive, [0]); ("utility_functions.py", 3268%positive, [0]);
  ("utility_functions.py", 3285%positive, [0]); ("utility_functions.py", 3289%positive, [0]);
  ("utility_functions.py", 3293%positive, [0]); ("utility_functions.py", 3297%positive, [0]);
  ("utility_functions.py", 3534%positive, [0]); ("utility_functions.py", 3540%positive, [0]);
  ("utility_functions.py", 3546%positive, [0]); ("utility_functions.py", 3552%positive, [0])]%nat.

(** Calls that are given a value and do not show it. *)
Definition silent : list (string * positive) := [
  ("controls.py", 586%positive); ("parts/controllers.py", 1049%positive); ("simenv.py", 1488%positive)].

Definition at_site (c : site) (f : string) (l : positive) : bool := String.eqb (file c) f && Pos.eqb (line c) l.

Definition numbers_of (c : site) : list nat :=
  match find (fun x => at_site c (fst (fst x)) (snd (fst x))) needs_numbers with
  | Some x => snd x
  | None => []
  end.

(** Values that fit to a call: as many as it takes, numbers where a number is needed. *)
Definition fitting (c : site) (args : list value) (kws : list (string * value)) : Prop :=
  List.length args = nargs c /\ map fst kws = keys c /\
  forall i, In i (numbers_of c) -> exists v, nth_error args i = Some v /\ is_number v.

Definition is_silent (c : site) : bool := existsb (fun x => at_site c (fst x) (snd x)) silent.

(** Number of the texts that are only known at run time. *)
Fixpoint holes (p : list piece) : nat :=
  match p with
  | [] => 0
  | Hole :: r => S (holes r)
  | _ :: r => holes r
  end.
