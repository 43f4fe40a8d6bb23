(** Specification vocabulary for a whole system of coupled explicit parts (C05). *)
From Coq Require Import Reals List Arith.
From Verif Require Import MSolver MHeun SHeun.
Import ListNotations.
Open Scope R_scope.

(** Temperatures of all parts with [nth p shape 0] cells in part [p]. *)
Definition has_shape (shape : list nat) (V : list vec) : Prop := map (@length R) V = shape.
Definition cell (shape : list nat) (p c : nat) : Prop := (c < nth p shape 0)%nat.

(** Two system states differ by at most [B] in every cell. *)
Definition within (shape : list nat) (V W : list vec) (B : R) : Prop :=
  forall p c, cell shape p c -> Rabs (getv V p c - getv W p c) <= B.

(** [P V] is what the ports hold when the parts have temperatures [V]: each connected port the
    temperature of the cell it is connected to, all other ports their fixed value. *)
Definition ports_of (conn : list (nat * src)) (fixed : vec) (P : list vec -> vec) : Prop :=
  forall V, length (P V) = length fixed /\
  (forall k p c, In (k, SrcE p c) conn -> nth k (P V) 0 = getv V p c) /\
  (forall k, ~ In k (map fst conn) -> nth k (P V) 0 = nth k fixed 0).

(** Right-hand side of the coupled cell equations: part [i] with slope [g_i ports T]. *)
Definition rhs (gs : list (vec -> vec -> vec)) (P : list vec -> vec) (V : list vec) : list vec :=
  map (fun gv => fst gv (P V) (snd gv)) (combine gs V).

(** Slope functions keep the number of cells and are Lipschitz as a system. *)
Definition lipschitz (shape : list nat) (F : list vec -> list vec) (L : R) : Prop :=
  forall V W B, has_shape shape V -> has_shape shape W ->
  within shape V W B -> within shape (F V) (F W) (L * B).

(** [Y] solves the cell equations on [[t, t+h]] and its second and third time derivatives are
    bounded there. *)
Definition next {Buf} (m : mem Buf) : mem Buf :=
  mkMem (m_ports m) (m_bkp m) (m_resE m) (m_ires m) (m_T m) (m_df0 m) (m_df1 m) (m_buf m)
        (m_resE m) (m_nT m) (m_nres m) (m_iT m) (m_ires m).

(** Consecutive accepted calls of the solver: the row written by one call is the previous row
    of the next one (simenv.py: [stepnum] is incremented).  [T] is the simulated time and all
    used steps are at most [hmax]. *)
Inductive accepted {Buf} (mo : model Buf) (c : cfg) (hmax : R)
  : mem Buf -> sst -> R -> mem Buf -> sst -> Prop :=
| acc_nil : forall m s, accepted mo c hmax m s 0 m s
| acc_step : forall m s fuel u m1 s1 T m2 s2,
    heun_adaptive mo c fuel m s = FAccepted u m1 s1 -> 0 < u <= hmax ->
    accepted mo c hmax (next m1) s1 T m2 s2 ->
    accepted mo c hmax m s (u + T) m2 s2.
