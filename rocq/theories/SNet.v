(** Vocabulary for the flow network properties: the relation an entry stands
    for, dependency order and port balances. *)
From Coq Require Import Reals ZArith List Bool Lra Lia Arith.
From Verif Require Import MNet.
Import ListNotations.
Local Open Scope R_scope.

(** Total of the flows in the listed cells. *)
Definition total (m : mem) (l : list addr) : R :=
  fold_right Rplus 0 (map m l).

(** The flow relation an entry demands of the flows [m], as an equation
    without division. *)
Inductive satisfies (m : mem) : entry -> Prop :=
| sat_copy t s : m t = m s -> satisfies m {| tgt := t; opid := 0; srcs := [s] |}
| sat_neg t s l : m t + total m (s :: l) = 0 ->
    satisfies m {| tgt := t; opid := -1; srcs := s :: l |}
| sat_sum t l : m t = total m l -> satisfies m {| tgt := t; opid := 1; srcs := l |}
| sat_diff t a b : m t + m b = m a ->
    satisfies m {| tgt := t; opid := 2; srcs := [a; b] |}
| sat_mul t a b : m t = m a * m b ->
    satisfies m {| tgt := t; opid := 3; srcs := [a; b] |}
| sat_nmul t a b : m t + m a * m b = 0 ->
    satisfies m {| tgt := t; opid := -3; srcs := [a; b] |}
| sat_div t a b : m b <> 0 -> m t * m b = m a ->
    satisfies m {| tgt := t; opid := 4; srcs := [a; b] |}
| sat_ndiv t a b : m b <> 0 -> m t * m b + m a = 0 ->
    satisfies m {| tgt := t; opid := -4; srcs := [a; b] |}
| sat_muldiv t a b c : m c <> 0 -> m t * m c = m a * m b ->
    satisfies m {| tgt := t; opid := 5; srcs := [a; b; c] |}.

(** Entries with a known operation and the number of sources it needs. *)
Definition well_formed (e : entry) : Prop :=
  match opid e, srcs e with
  | 0%Z, [_] | 1%Z, _ | (-1)%Z, _ :: _
  | 2%Z, [_; _] | 3%Z, [_; _] | (-3)%Z, [_; _]
  | 4%Z, [_; _] | (-4)%Z, [_; _] | 5%Z, [_; _; _] => True
  | _, _ => False
  end.

(** No flow is used before it is computed, none is computed twice. *)
Fixpoint dep_ordered (net : list entry) : Prop :=
  match net with
  | [] => True
  | e :: r =>
      ~ In (tgt e) (srcs e)
      /\ (forall e', In e' r -> ~ In (tgt e') (tgt e :: srcs e))
      /\ dep_ordered r
  end.

(** Flow into a port: the connected cell, sign changed when both ends count
    inflow positive. *)
Definition passed (m : mem) (p : parent) : R :=
  if p_pos p then m (p_src p) else - m (p_src p).
