(** The array of the switching states of a CHP plant over several simulations of the same
    environment (parts/chp_plant.py 271, 561-565, 660-663, 677-697, 772; simenv.py 4693-4701,
    4940, 5676-5687).  Only the shapes of the array are kept: the values play no part in what is
    shown here. *)
From Coq Require Import List Arith Bool Lia.
Import ListNotations.

Definition shape := list nat.
Definition size (sh : shape) : nat := fold_right Nat.mul 1 sh.

(** chp_plant.py 271: [np.zeros(1)]. *)
Definition state_new : shape := [1].

(** chp_plant.py 565 with [num_steps = n], called by every [initialize_sim] (simenv.py 4700). *)
Definition special_array_init (n : nat) (sh : shape) : shape := (n + 1) :: sh.

(** chp_plant.py 663: the slice [0:stepnum] of the first axis. *)
Definition special_crop (k : nat) (sh : shape) : shape :=
  match sh with [] => [] | d :: r => Nat.min k d :: r end.

(** chp_plant.py 683: indexing with one number removes the first axis. *)
Definition last_row (sh : shape) : shape := tl sh.

(** chp_plant.py 697: [if (state_last_step != 0.0) != self._chp_on]: the comparisons keep the shape
    and NumPy refuses the truth value of an array with more than one element. *)
Definition if_works (sh : shape) : bool := size sh <=? 1.

(** One simulation: initialisation for [n] steps, first call of [get_diff] (683-697), and, if that
    does not raise, the crop to the [k] rows done (simenv.py 4940).  Result: does it get past the
    first step? *)
Definition simulate (sh : shape) (nk : nat * nat) : bool * shape :=
  let a := special_array_init (fst nk) sh in
  if if_works (last_row a) then (true, special_crop (snd nk) a) else (false, a).

(** Any number of simulations of the same environment, each after [initialize_sim], with or without
    [reset_simenv]: [Pipe._reset_to_init_cond] (pipe.py 550-562), which the plant inherits, leaves
    the array alone. *)
Fixpoint simulations (sh : shape) (l : list (nat * nat)) : list bool :=
  match l with
  | [] => []
  | nk :: r => let (ok, sh') := simulate sh nk in ok :: simulations sh' r
  end.
