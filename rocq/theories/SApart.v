(** Two networks without connection in one simulation environment.

    The parts of both networks are created in one [SimEnv] (simenv.py 862-910): the parts of the
    second one come after those of the first, its ports get the numbers after the first [n] ports
    and its parts only read and write these; the numbers of cells add up (876-890).  The solver
    settings are those of the environment. *)
From Coq Require Import Reals List Arith.
From Verif Require Import MSolver MHeun SHeun LHeun.
Import ListNotations.
Open Scope R_scope.

Section S.
Context {Buf : Type}.

(** Parts of the first network see the first [n] ports, those of the second one the others. *)
Definition first_e (n : nat) (p : epart Buf) : epart Buf :=
  mkEpart (fun h ports T b => ep_diff p h (firstn n ports) T b) (ep_weight p).
Definition second_e (n : nat) (p : epart Buf) : epart Buf :=
  mkEpart (fun h ports T b => ep_diff p h (skipn n ports) T b) (ep_weight p).
Definition first_n (n : nat) (p : npart) : npart := fun h ports => p h (firstn n ports).
Definition second_n (n : nat) (p : npart) : npart := fun h ports => p h (skipn n ports).
Definition first_i (n : nat) (p : ipart) : ipart := fun h ports => p h (firstn n ports).
Definition second_i (n : nat) (p : ipart) : ipart := fun h ports => p h (skipn n ports).
Definition shift_src (e k i : nat) (s : src) : src :=
  match s with SrcE p c => SrcE (e + p) c | SrcN p c => SrcN (k + p) c | SrcI p c => SrcI (i + p) c end.

(** Both networks in one environment; [n] ports belong to the first one. *)
Definition both (n : nat) (A B : model Buf) : model Buf :=
  mkModel (map (first_e n) (mo_e A) ++ map (second_e n) (mo_e B))
          (map (first_n n) (mo_n A) ++ map (second_n n) (mo_n B))
          (map (first_i n) (mo_i A) ++ map (second_i n) (mo_i B))
          (mo_ports A ++ map (fun ts => ((n + fst ts)%nat,
              shift_src (length (mo_e A)) (length (mo_n A)) (length (mo_i A)) (snd ts))) (mo_ports B))
          (mo_rtol A) (mo_atol A) (mo_cells A + mo_cells B).
(** Their memory side by side. *)
Definition both_mem (a b : mem Buf) : mem Buf :=
  mkMem (m_ports a ++ m_ports b) (m_bkp a ++ m_bkp b) (m_prevE a ++ m_prevE b) (m_prevI a ++ m_prevI b)
        (m_T a ++ m_T b) (m_df0 a ++ m_df0 b) (m_df1 a ++ m_df1 b) (m_buf a ++ m_buf b)
        (m_resE a ++ m_resE b) (m_nT a ++ m_nT b) (m_nres a ++ m_nres b)
        (m_iT a ++ m_iT b) (m_ires a ++ m_ires b).
(** Arrays have the sizes of the network, port sources exist. *)
Definition fits (n : nat) (mo : model Buf) (m : mem Buf) : Prop :=
  shaped mo m /\ length (m_ports m) = n /\ length (m_bkp m) = n /\
  Forall (fun ts => (fst ts < n)%nat /\
    match snd ts with
    | SrcE p _ => (p < length (mo_e mo))%nat
    | SrcN p _ => (p < length (mo_n mo))%nat
    | SrcI p _ => (p < length (mo_i mo))%nat
    end) (mo_ports mo).

(** The next step starts from the row just computed (simenv.py 5040-5075). *)
Definition next_row (m : mem Buf) : mem Buf :=
  mkMem (m_ports m) (m_ports m) (m_resE m) (m_ires m) (m_T m) (m_df0 m) (m_df1 m) (m_buf m)
        (m_resE m) (m_nT m) (m_nres m) (m_iT m) (m_ires m).
(** A course of attempts without stability violation in the predictor: step size and whether the
    step was accepted. *)
Inductive course (mo : model Buf) : list (R * bool) -> mem Buf -> mem Buf -> Prop :=
| co_nil m : course mo [] m m
| co_yes h l m m1 ds e m2 : num_attempt mo h m = (m1, OStable ds e) ->
    course mo l (next_row m1) m2 -> course mo ((h, true) :: l) m m2
| co_no h l m m1 ds e m2 : num_attempt mo h m = (m1, OStable ds e) ->
    course mo l (restore m1) m2 -> course mo ((h, false) :: l) m m2.

(** A part of [k] cells at rest: no differential, no objection, no ports. *)
Definition rest_part (k : nat) (b : Buf) : epart Buf :=
  mkEpart (fun _ _ _ _ => (repeat 0 k, None, b)) (repeat 1 k).
Definition at_rest (k : nat) (b : Buf) (rtol atol : R) : model Buf :=
  mkModel [rest_part k b] [] [] [] rtol atol (INR k).
Definition rest_mem (k : nat) (b : Buf) (T : R) : mem Buf :=
  mkMem [] [] [repeat T k] [] [repeat T k] [repeat 0 k] [repeat 0 k] [b] [repeat T k] [] [] [] [].
End S.
