(** Property theorems: rejected attempts and the Heun scheme (C04, C05). *)
From Coq Require Import Reals List Arith Lra.
From Coquelicot Require Import Coquelicot.
From Verif Require Import MSolver LSolver MHeun SHeun LHeun LHeunOrder LHeunTol SHeunSys LHeunSys
  LHeunEx LHeunEx2 LHeunEx3.
Import ListNotations.
Open Scope R_scope.

(** C04, for parts whose slope does not depend on buffers kept between evaluations: whatever
    was tried and rejected before, the stored rows and the ports are those of one clean
    attempt with the accepted step size.  (For parts that keep buffers see
    [C04_pipe_slope_history_refuted].) *)
Theorem C04_rejected_leave_no_trace_partial :
  forall (Buf : Type) (mo : model Buf) c fs fuel (m : mem Buf) s u m' s',
  Forall2 pure_part (mo_e mo) fs -> shaped mo m ->
  heun_adaptive mo c fuel m s = FAccepted u m' s' ->
  clean_step fs (mo_n mo) (mo_i mo) (update_ports (mo_ports mo)) u
    (m_prevE m) (m_prevI m) (m_ports m)
  = (m_resE m', m_nres m', m_ires m', m_ports m') /\
  m_T m' = m_resE m' /\ m_prevE m' = m_prevE m.
Proof. exact (@heun_adaptive_clean). Qed.
Print Assumptions C04_rejected_leave_no_trace_partial.

Example C04_example :
  Forall2 pure_part (mo_e ex_model) [ex_slope] /\ shaped ex_model ex_mem /\
  exists u m' s',
  heun_adaptive ex_model cfg_default 2 ex_mem (init_sst cfg_default) = FAccepted u m' s' /\
  0 < u < 0.5.
Proof. exact (conj ex_pure (conj ex_shaped ex_accepted)). Qed.

(** C05: one accepted call of the solver on a system of parts coupled through their ports
    ([coupled]: only explicit parts with slopes [gs] depending on ports and own temperatures),
    started off the exact solution [Y] of the coupled cell equations by at most [B]: the
    initial difference grows at most by [exp (L u)] and the step adds at most a third order
    error. *)
Theorem C05_step_error :
  forall (Buf : Type) (mo : model Buf) c gs fixed P shape L M2 M3 Y
         fuel (m : mem Buf) s u m' s' t B,
  coupled mo gs fixed P shape -> ready mo P shape m ->
  0 <= L -> lipschitz shape (rhs gs P) L -> 0 < u -> 0 <= B ->
  heun_adaptive mo c fuel m s = FAccepted u m' s' ->
  solves shape (rhs gs P) Y M2 M3 t (t + u) ->
  within shape (Y t) (m_prevE m) B ->
  within shape (Y (t + u)) (m_resE m')
    (exp (L * u) * B + u ^ 3 * (5 / 12 * M3 + L * M2 / 4)).
Proof.
  intros Buf mo c gs fixed P shape L M2 M3 Y fuel m s u m' s' t B HC Hr HL Hlip Hu HB H HS Hd.
  exact (step_error mo c gs fixed P shape HC L M2 M3 Y HL Hlip fuel m s u m' s' t B
           Hr Hu HB H HS Hd).
Qed.
Print Assumptions C05_step_error.

(** C05: over any number of accepted steps of any sizes up to [hmax] the computed temperatures
    converge to the exact solution with second order. *)
Theorem C05_global_error :
  forall (Buf : Type) (mo : model Buf) c gs fixed P shape L M2 M3 Y hmax
         (m : mem Buf) s T m' s' t B,
  coupled mo gs fixed P shape -> ready mo P shape m ->
  0 <= L -> 0 <= M2 -> 0 <= M3 -> lipschitz shape (rhs gs P) L -> 0 <= B ->
  accepted mo c hmax m s T m' s' ->
  solves shape (rhs gs P) Y M2 M3 t (t + T) ->
  within shape (Y t) (m_prevE m) B ->
  within shape (Y (t + T)) (m_prevE m')
    (exp (L * T) * (B + T * (hmax ^ 2 * (5 / 12 * M3 + L * M2 / 4)))).
Proof.
  intros Buf mo c gs fixed P shape L M2 M3 Y hmax m s T m' s' t B HC Hr HL HM2 HM3 Hlip HB H
    HS Hd.
  exact (global_error mo c gs fixed P shape HC L M2 M3 Y HL HM2 HM3 Hlip hmax m s T m' s' H
           t B Hr HB HS Hd).
Qed.
Print Assumptions C05_global_error.

Example C05_example :
  coupled cmodel [cg 0; cg 1] [0; 0] cP cshape /\ ready cmodel cP cshape cmem /\
  lipschitz cshape (rhs [cg 0; cg 1] cP) 1 /\
  solves cshape (rhs [cg 0; cg 1] cP) cY (1 / 100) (1 / 100) 0 (0 + 1) /\
  within cshape (cY 0) (m_prevE cmem) 0 /\
  exists m' s',
  heun_adaptive cmodel cfg_default 1 cmem (init_sst cfg_default) = FAccepted 1 m' s' /\
  accepted cmodel cfg_default 1 cmem (init_sst cfg_default) (1 + 0) (next m') s'.
Proof.
  split; [exact c_coupled|]. split; [exact c_ready|]. split; [exact c_lip|].
  split; [exact c_solves|]. split; [exact c_start|].
  destruct c_accepted as (m'&s'&E). exists m', s'. split; [exact E|].
  apply (acc_step _ _ _ _ _ 1 1 m' s' 0); [exact E|split; [apply Rlt_0_1|apply Rle_refl]|].
  constructor.
Qed.

(** C05: a part with linear relaxation, among arbitrary other parts: an accepted call
    multiplies the distance to the equilibrium by exactly [1 - z + z^2/2]. *)
Theorem C05_relaxation :
  forall (Buf : Type) (mo : model Buf) c fs fuel (m : mem Buf) s u m' s' p df a Tinf i,
  Forall2 pure_part (mo_e mo) fs -> shaped mo m ->
  heun_adaptive mo c fuel m s = FAccepted u m' s' ->
  (p < length (mo_e mo))%nat -> nth p fs df = (fun _ _ T => map (fun x => a * (Tinf - x)) T) ->
  (i < length (nth p (m_prevE m) []))%nat ->
  getv (m_resE m') p i - Tinf
  = (1 - a * u + (a * u) ^ 2 / 2) * (getv (m_prevE m) p i - Tinf).
Proof. exact (@relax_step). Qed.
Print Assumptions C05_relaxation.

(** C05: that factor is within [z^3/6] above the exact exponential decay. *)
Theorem C05_relaxation_error : forall z, 0 <= z ->
  0 <= (1 - z + z ^ 2 / 2) - exp (- z) <= z ^ 3 / 6.
Proof. exact exp_neg_bounds. Qed.
Print Assumptions C05_relaxation_error.

(** C60: in a call that is accepted with a step other than the minimum step every cell's two
    estimates (the stored Heun result [r] and the Euler prediction) differ by less than the
    tolerance [rtol max(y, r) + atol] times the root of the number of cells. *)
Theorem C60_tolerance_kept_partial :
  forall (Buf : Type) (mo : model Buf) c fs fuel (m : mem Buf) s u m' s' p i de df,
  Forall2 pure_part (mo_e mo) fs -> shaped mo m -> 0 < mo_cells mo ->
  heun_adaptive mo c fuel m s = FAccepted u m' s' -> u <> c_min_step c ->
  (p < length (mo_e mo))%nat ->
  let y := nth p (m_prevE m) [] in let r := nth p (m_resE m') [] in
  let t := euler u y (nth p fs df u (m_ports m) y) in
  let w := ep_weight (nth p (mo_e mo) de) in
  (i < length r)%nat -> length t = length r -> length w = length r -> length y = length r ->
  let tol := Rmax (nth i y 0) (nth i r 0) * mo_rtol mo + mo_atol mo in
  tol <> 0 ->
  Rabs ((nth i r 0 - nth i t 0) * nth i w 0) < sqrt (mo_cells mo) * Rabs tol.
Proof.
  intros Buf mo c fs fuel m s u m' s' p i de df Hp Hs Hc H Hu Hpp.
  unfold heun_adaptive in H.
  assert (G := fun A B => tolerance mo c fs Hp Hc fuel _ _ u m' s' A B H Hu p i de df Hpp).
  exact (G Hs eq_refl).
Qed.
Print Assumptions C60_tolerance_kept_partial.

(** C60: conversely a stable attempt in which every cell is within its tolerance is accepted. *)
Theorem C60_within_tolerance_accepted :
  forall (Buf : Type) (mo : model Buf) c fs h (m m' : mem Buf) ds e s de df,
  Forall2 pure_part (mo_e mo) fs -> shaped mo m -> s_h s = h ->
  num_attempt mo h m = (m', OStable ds e) ->
  mo_cells mo = INR (ncells (m_resE m')) -> 0 < mo_cells mo ->
  (forall p, (p < length (mo_e mo))%nat ->
    let y := nth p (m_prevE m) [] in let r := nth p (m_resE m') [] in
    let t := euler h y (nth p fs df h (m_ports m) y) in
    let w := ep_weight (nth p (mo_e mo) de) in
    length t = length r /\ length w = length r /\ length y = length r /\
    forall i, (i < length r)%nat ->
    let tol := Rmax (nth i y 0) (nth i r 0) * mo_rtol mo + mo_atol mo in
    0 < tol /\ Rabs ((nth i r 0 - nth i t 0) * nth i w 0) < tol) ->
  exists k s', attempt c s (OStable ds e) = AAccept h k s'.
Proof. exact (@within_accepted). Qed.
Print Assumptions C60_within_tolerance_accepted.

Example C60_example : exists m' s',
  heun_adaptive cmodel cfg_default 1 cmem (init_sst cfg_default) = FAccepted 1 m' s' /\
  1 <> c_min_step cfg_default.
Proof.
  destruct c_accepted as (m'&s'&E). exists m', s'. split; [exact E|].
  cbn. intros N. lra.
Qed.

(** C60 does not hold with the absolute tolerance as lower limit: the code weights with
    [max(y, r)] instead of the magnitudes, so the tolerance vanishes for temperatures around
    [- atol / rtol] (-0.001 degC by default).  Here the two estimates differ by a thousandth of
    [atol] and the attempt is rejected. *)
Theorem C60_absolute_tolerance_refuted :
  exists m' s',
  num_attempt zmodel 1 zmem = (m', OStable [] (ENum 1000000)) /\
  Rabs (getv (m_resE m') 0 0 -
        nth 0 (euler 1 (nth 0 (m_prevE zmem) []) (zg [] (nth 0 (m_prevE zmem) []))) 0)
    = mo_atol zmodel / 1000 /\
  attempt cfg_default (init_sst cfg_default) (OStable [] (ENum 1000000)) = ARetry s'.
Proof. exact z_rejected. Qed.
Print Assumptions C60_absolute_tolerance_refuted.
