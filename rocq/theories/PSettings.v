(** Properties of the solver settings: C42. *)
From Coq Require Import Reals List ZArith String Bool Lra.
From Verif Require Import MSettings.
Import ListNotations.
Open Scope string_scope.
Open Scope R_scope.

(** Documented ranges, on Python values. *)
Definition real_of (v : val) (r : R) : Prop :=
  v = VFloat (Fin r) \/ (exists z, v = VInt z /\ r = IZR z) \/
  (exists b : bool, v = VBool b /\ r = if b then 1 else 0).
Definition float_in_unit (v : val) : Prop := exists r, v = VFloat (Fin r) /\ 0 < r < 1.
Definition above (lo : R) (v : val) : Prop :=
  v = VFloat PInf \/ exists r, real_of v r /\ lo < r.
(** [min_stepsize] below the maximum step size given, 100 if none is given. *)
Definition min_ok (mx : option val) (v : val) : Prop :=
  exists r, real_of v r /\ 0 < r /\
    match mx with None => r < 100 | Some m => m = VFloat PInf \/ exists q, real_of m q /\ r < q end.
(** The value given for a name: the first entry of that name. *)
Inductive given : list (string * val) -> string -> val -> Prop :=
| given_here : forall k v l, given ((k, v) :: l) k v
| given_later : forall k v k' v' l, k' <> k -> given l k v -> given ((k', v') :: l) k v.

Definition valid (kw : list (string * val)) (k : string) (v : val) : Prop :=
  (k = "rtol" -> float_in_unit v) /\ (k = "atol" -> float_in_unit v) /\
  (k = "max_stepsize" -> above (1 / 100000000) v) /\
  (k = "min_stepsize" -> exists mx, min_ok mx v /\
     match mx with Some m => given kw "max_stepsize" m
                 | None => forall m, ~ given kw "max_stepsize" m end) /\
  (k = "max_factor" -> above 1 v) /\ (k = "min_factor" -> float_in_unit v) /\
  (k = "max_speed" -> exists b, v = VBool b) /\ (k = "safety_factor" -> float_in_unit v) /\
  (k = "factor_recovery" -> above 0 v).

Lemma given_lookup : forall kw k v, given kw k v <-> lookup k kw = Some v.
Proof.
  unfold lookup. induction kw as [|[x y] kw IH]; intros k v; cbn.
  - split; [intros H; inversion H|discriminate].
  - destruct (String.eqb_spec x k) as [->|N]; cbn.
    + split; [intros H; inversion H; subst; congruence|]. intros H. injection H as ->. constructor.
    + rewrite <- IH. split; [intros H; inversion H; subst; [congruence|assumption]|].
      intros H. constructor; assumption.
Qed.
Lemma nlt_fin : forall a b, nlt (Fin a) (Fin b) = true <-> a < b.
Proof. intros. cbn. destruct (Rlt_dec a b); split; intros; auto; discriminate || contradiction. Qed.
Lemma unit_spec : forall v x, float v = Some x -> (unit_open x = true <-> float_in_unit v).
Proof.
  intros v x E. destruct v; try discriminate. cbn in E. injection E as ->. unfold unit_open, float_in_unit.
  destruct x as [r| | |]; cbn.
  - destruct (Rlt_dec 0 r); destruct (Rlt_dec r 1); cbn; split; try discriminate; eauto;
      intros (q & Q & B); injection Q as <-; lra.
  - split; [discriminate|intros (q & Q & _); discriminate].
  - split; [discriminate|intros (q & Q & _); discriminate].
  - split; [discriminate|intros (q & Q & _); discriminate].
Qed.
Lemma number_real : forall v r, number v = Some (Fin r) <-> real_of v r.
Proof.
  intros v r. unfold real_of. destruct v as [b|z|x|]; cbn.
  - split; [intros E; injection E as <-; eauto|]. intros [H|[(z & H & _)|(c & H & ->)]]; try discriminate.
    injection H as ->. reflexivity.
  - split; [intros E; injection E as <-; eauto|]. intros [H|[(c & H & ->)|(c & H & _)]]; try discriminate.
    injection H as ->. reflexivity.
  - split; [intros E; injection E as ->; auto|]. intros [H|[(c & H & _)|(c & H & _)]]; try discriminate.
    injection H as ->. reflexivity.
  - split; [discriminate|]. intros [H|[(c & H & _)|(c & H & _)]]; discriminate.
Qed.
Lemma number_pinf : forall v, number v = Some PInf <-> v = VFloat PInf.
Proof. intros [b|z|x|]; cbn; split; intros E; try discriminate; injection E as ->; reflexivity. Qed.
Lemma above_spec : forall lo v x, number v = Some x -> (nlt (Fin lo) x = true <-> above lo v).
Proof.
  intros lo v x E. unfold above. destruct x as [r| | |].
  - rewrite nlt_fin. apply number_real in E. split; [eauto|]. intros [->|(q & Q & L)].
    + apply number_real in E. discriminate.
    + apply number_real in Q, E. rewrite Q in E. injection E as ->. exact L.
  - split; [|reflexivity]. intros _. left. apply number_pinf, E.
  - split; [discriminate|]. intros [->|(q & Q & L)]; [discriminate|].
    apply number_real in Q. congruence.
  - split; [discriminate|]. intros [->|(q & Q & L)]; [discriminate|].
    apply number_real in Q. congruence.
Qed.
Lemma above_number : forall lo v, above lo v -> exists x, number v = Some x.
Proof. intros lo v [->|(r & Q & _)]; [cbn; eauto|]. apply number_real in Q. eauto. Qed.

Lemma setting_unit : forall k kw d, 0 < d < 1 ->
  match setting k kw float unit_open d with
  | Some x => (exists r, x = Fin r /\ 0 < r < 1) /\
              (forall v, given kw k v -> v = VFloat x /\ float_in_unit v) /\
              ((forall v, ~ given kw k v) -> x = Fin d)
  | None => exists v, given kw k v /\ ~ float_in_unit v
  end.
Proof.
  intros k kw d D. unfold setting. destruct (lookup k kw) as [v|] eqn:L.
  - destruct (float v) as [x|] eqn:F.
    + destruct (unit_open x) eqn:U.
      * assert (Q : float_in_unit v) by (apply (unit_spec v x F), U).
        destruct Q as (r & -> & RR). cbn in F. injection F as <-. split; [eauto|]. split.
        -- intros v G. apply given_lookup in G. rewrite L in G. injection G as <-.
           split; [reflexivity|]. exists r. auto.
        -- intros N. exfalso. apply (N (VFloat (Fin r))), given_lookup, L.
      * exists v. split; [apply given_lookup, L|]. intros Q. apply (unit_spec v x F) in Q. congruence.
    + exists v. split; [apply given_lookup, L|]. intros (r & -> & _). discriminate.
  - split; [eauto|]. split; [|reflexivity]. intros v G. apply given_lookup in G. congruence.
Qed.
Lemma setting_above : forall k kw lo d, lo < d ->
  match setting k kw number (fun x => nlt (Fin lo) x) d with
  | Some x => nlt (Fin lo) x = true /\
              (forall v, given kw k v -> number v = Some x /\ above lo v) /\
              ((forall v, ~ given kw k v) -> x = Fin d)
  | None => exists v, given kw k v /\ ~ above lo v
  end.
Proof.
  intros k kw lo d D. unfold setting. destruct (lookup k kw) as [v|] eqn:L.
  - destruct (number v) as [x|] eqn:F.
    + destruct (nlt (Fin lo) x) eqn:U.
      * split; [exact U|]. split.
        -- intros w G. apply given_lookup in G. rewrite L in G. injection G as <-.
           split; [exact F|]. apply (above_spec lo v x F), U.
        -- intros N. exfalso. apply (N v), given_lookup, L.
      * exists v. split; [apply given_lookup, L|]. intros Q. apply (above_spec lo v x F) in Q. congruence.
    + exists v. split; [apply given_lookup, L|]. intros Q. apply above_number in Q.
      destruct Q; congruence.
  - split; [apply nlt_fin, D|]. split; [|reflexivity]. intros v G. apply given_lookup in G. congruence.
Qed.
Lemma setting_min : forall kw mx, nlt (Fin (1 / 100000000)) mx = true ->
  match setting "min_stepsize" kw number (fun x => nlt (Fin 0) x && nlt x mx)%bool (1 / 100000000) with
  | Some x => (exists r, x = Fin r /\ 0 < r /\ nlt (Fin r) mx = true) /\
              (forall v, given kw "min_stepsize" v -> number v = Some x) /\
              ((forall v, ~ given kw "min_stepsize" v) -> x = Fin (1 / 100000000))
  | None => exists v, given kw "min_stepsize" v /\
              ~ (exists r, real_of v r /\ 0 < r /\ nlt (Fin r) mx = true)
  end.
Proof.
  intros kw mx D. unfold setting. destruct (lookup "min_stepsize" kw) as [v|] eqn:L.
  - destruct (number v) as [x|] eqn:F.
    + destruct (nlt (Fin 0) x && nlt x mx)%bool eqn:U.
      * apply andb_true_iff in U. destruct U as [U1 U2]. split.
        -- destruct x as [r| | |]; try discriminate.
           exists r. rewrite nlt_fin in U1. auto.
        -- split; [intros w G; apply given_lookup in G; congruence|].
           intros N. exfalso. apply (N v), given_lookup, L.
      * exists v. split; [apply given_lookup, L|]. intros (r & Q & P & M).
        apply number_real in Q. rewrite Q in F. injection F as <-.
        rewrite M in U. apply nlt_fin in P. rewrite P in U. discriminate.
    + exists v. split; [apply given_lookup, L|]. intros (r & Q & _). apply number_real in Q. congruence.
  - split; [exists (1 / 100000000); repeat split; [lra|exact D]|].
    split; [|reflexivity]. intros v G. apply given_lookup in G. congruence.
Qed.

(** The parts of an accepted adaptive configuration. *)
Lemma accepted : forall timeframe kw st,
  set_timeframe timeframe (VBool true) kw = Some (Adaptive st) ->
  number timeframe = Some (Fin (tf st)) /\ 0 < tf st /\
  setting "rtol" kw float unit_open (1 / 1000) = Some (rtol st) /\
  setting "atol" kw float unit_open (1 / 1000000) = Some (atol st) /\
  setting "max_stepsize" kw number (fun x => nlt (Fin (1 / 100000000)) x) 100 = Some (max_step st) /\
  setting "min_stepsize" kw number (fun x => nlt (Fin 0) x && nlt x (max_step st))%bool
     (1 / 100000000) = Some (min_step st) /\
  setting "max_factor" kw number (fun x => nlt (Fin 1) x) 2 = Some (max_factor st) /\
  setting "min_factor" kw float unit_open (2 / 10) = Some (min_factor st) /\
  lookup "check_vN" kw = None /\ check_vn st = true /\
  flag "max_speed" kw false = Some (max_speed st) /\
  setting "safety_factor" kw float unit_open (9 / 10) = Some (safety st) /\
  setting "factor_recovery" kw number (fun x => nlt (Fin 0) x) 50 = Some (recovery st) /\
  start_step st = 1.
Proof.
  intros t kw st H. unfold set_timeframe in H.
  destruct (number t) as [[T| | |]|]; try discriminate. destruct (Rlt_dec 0 T) as [TP|]; [|discriminate].
  destruct (setting "rtol" _ _ _ _) as [r|]; [|discriminate].
  destruct (setting "atol" _ _ _ _) as [a|]; [|discriminate].
  destruct (setting "max_stepsize" _ _ _ _) as [mx|]; [|discriminate].
  destruct (setting "min_stepsize" _ _ _ _) as [mn|] eqn:EM; [|discriminate].
  destruct (setting "max_factor" _ _ _ _) as [xf|]; [|discriminate].
  destruct (setting "min_factor" _ _ _ _) as [nf|]; [|discriminate].
  unfold check_vn_arg in H. destruct (lookup "check_vN" kw); [discriminate|].
  destruct (flag _ _ _) as [ms|]; [|discriminate].
  destruct (setting "safety_factor" _ _ _ _) as [sf|]; [|discriminate].
  destruct (setting "factor_recovery" _ _ _ _) as [rc|]; [|discriminate].
  injection H as <-. cbn. repeat split; auto.
Qed.

(** An accepted adaptive configuration has all settings in their documented ranges. *)
Theorem C42_ranges : forall timeframe kw st,
  set_timeframe timeframe (VBool true) kw = Some (Adaptive st) ->
  real_of timeframe (tf st) /\ 0 < tf st /\
  (exists r, rtol st = Fin r /\ 0 < r < 1) /\ (exists r, atol st = Fin r /\ 0 < r < 1) /\
  (exists m, min_step st = Fin m /\ 0 < m /\
     (max_step st = PInf \/ exists M, max_step st = Fin M /\ m < M)) /\
  (max_step st = PInf \/ exists M, max_step st = Fin M /\ 1 / 100000000 < M) /\
  (max_factor st = PInf \/ exists f, max_factor st = Fin f /\ 1 < f) /\
  (exists r, min_factor st = Fin r /\ 0 < r < 1) /\ (exists r, safety st = Fin r /\ 0 < r < 1) /\
  (recovery st = PInf \/ exists n, recovery st = Fin n /\ 0 < n).
Proof.
  intros t kw st H. destruct (accepted t kw st H) as
    (A1 & A2 & A3 & A4 & A5 & A6 & A7 & A8 & A9 & A10 & A11 & A12 & A13 & A14).
  pose proof (setting_unit "rtol" kw (1 / 1000) ltac:(lra)) as B3. rewrite A3 in B3.
  pose proof (setting_unit "atol" kw (1 / 1000000) ltac:(lra)) as B4. rewrite A4 in B4.
  pose proof (setting_above "max_stepsize" kw (1 / 100000000) 100 ltac:(lra)) as B5. rewrite A5 in B5.
  pose proof (setting_min kw (max_step st) (proj1 B5)) as B6. rewrite A6 in B6.
  pose proof (setting_above "max_factor" kw 1 2 ltac:(lra)) as B7. rewrite A7 in B7.
  pose proof (setting_unit "min_factor" kw (2 / 10) ltac:(lra)) as B8. rewrite A8 in B8.
  pose proof (setting_unit "safety_factor" kw (9 / 10) ltac:(lra)) as B12. rewrite A12 in B12.
  pose proof (setting_above "factor_recovery" kw 0 50 ltac:(lra)) as B13. rewrite A13 in B13.
  assert (AB : forall lo x, nlt (Fin lo) x = true -> x = PInf \/ exists M, x = Fin M /\ lo < M).
  { intros lo [r| | |] Q; try discriminate; auto. rewrite nlt_fin in Q. eauto. }
  split; [apply number_real, A1|]. split; [exact A2|].
  split; [apply B3|]. split; [apply B4|].
  split.
  { destruct B6 as [(m & M1 & M2 & M3) _]. exists m. split; [exact M1|]. split; [exact M2|]. auto. }
  split; [apply AB, B5|]. split; [apply AB, B7|]. split; [apply B8|]. split; [apply B12|].
  apply AB, B13.
Qed.

(** The stored value of each setting is the one given, the documented default if none is. *)
Theorem C42_stored : forall timeframe kw st,
  set_timeframe timeframe (VBool true) kw = Some (Adaptive st) ->
  forall k x d, In (k, x, d)
    [("rtol", rtol st, 1 / 1000); ("atol", atol st, 1 / 1000000); ("max_stepsize", max_step st, 100);
     ("min_stepsize", min_step st, 1 / 100000000); ("max_factor", max_factor st, 2);
     ("min_factor", min_factor st, 2 / 10); ("safety_factor", safety st, 9 / 10);
     ("factor_recovery", recovery st, 50)] ->
  (forall v, given kw k v -> match x with Fin r => real_of v r | PInf => v = VFloat PInf
                                        | _ => False end) /\
  ((forall v, ~ given kw k v) -> x = Fin d).
Proof.
  intros t kw st H k x d I. destruct (C42_ranges t kw st H) as
    (_ & _ & R1 & R2 & R3 & R4 & R5 & R6 & R7 & R8).
  destruct (accepted t kw st H) as
    (A1 & A2 & A3 & A4 & A5 & A6 & A7 & A8 & A9 & A10 & A11 & A12 & A13 & A14).
  pose proof (setting_unit "rtol" kw (1 / 1000) ltac:(lra)) as B3. rewrite A3 in B3.
  pose proof (setting_unit "atol" kw (1 / 1000000) ltac:(lra)) as B4. rewrite A4 in B4.
  pose proof (setting_above "max_stepsize" kw (1 / 100000000) 100 ltac:(lra)) as B5. rewrite A5 in B5.
  pose proof (setting_min kw (max_step st) (proj1 B5)) as B6. rewrite A6 in B6.
  pose proof (setting_above "max_factor" kw 1 2 ltac:(lra)) as B7. rewrite A7 in B7.
  pose proof (setting_unit "min_factor" kw (2 / 10) ltac:(lra)) as B8. rewrite A8 in B8.
  pose proof (setting_unit "safety_factor" kw (9 / 10) ltac:(lra)) as B12. rewrite A12 in B12.
  pose proof (setting_above "factor_recovery" kw 0 50 ltac:(lra)) as B13. rewrite A13 in B13.
  assert (U : forall k x d, ((exists r, x = Fin r /\ 0 < r < 1) /\
      (forall v, given kw k v -> v = VFloat x /\ float_in_unit v) /\
      ((forall v, ~ given kw k v) -> x = Fin d)) ->
      (forall v, given kw k v -> match x with Fin r => real_of v r | PInf => v = VFloat PInf
        | _ => False end) /\ ((forall v, ~ given kw k v) -> x = Fin d)).
  { intros k' x' d' ((r & -> & _) & Q & D). split; [|exact D]. intros v G.
    left. apply (Q v G). }
  assert (V : forall k x d, x = PInf \/ (exists M, x = Fin M) ->
      (forall v, given kw k v -> number v = Some x) -> ((forall v, ~ given kw k v) -> x = Fin d) ->
      (forall v, given kw k v -> match x with Fin r => real_of v r | PInf => v = VFloat PInf
        | _ => False end) /\ ((forall v, ~ given kw k v) -> x = Fin d)).
  { intros k' x' d' X Q D. split; [|exact D]. intros v G. specialize (Q v G).
    destruct X as [->|[M ->]]; [apply number_pinf, Q|apply number_real, Q]. }
  cbn [In] in I.
  destruct I as [I|[I|[I|[I|[I|[I|[I|[I|[]]]]]]]]]; injection I as <- <- <-.
  - apply U, B3.
  - apply U, B4.
  - apply V; [destruct R4 as [?|(M & ? & _)]; eauto|intros v G; apply (proj1 (proj2 B5) v G)|apply B5].
  - apply V; [destruct R3 as (m & ? & _); eauto|apply B6|apply B6].
  - apply V; [destruct R5 as [?|(M & ? & _)]; eauto|intros v G; apply (proj1 (proj2 B7) v G)|apply B7].
  - apply U, B8.
  - apply U, B12.
  - apply V; [destruct R8 as [?|(M & ? & _)]; eauto|intros v G; apply (proj1 (proj2 B13) v G)|apply B13].
Qed.

(** Any invalid value of a known setting is refused. *)
Theorem C42_rejects : forall timeframe kw k v, given kw k v -> ~ valid kw k v ->
  set_timeframe timeframe (VBool true) kw = None.
Proof.
  intros t kw k v G NV. destruct (set_timeframe t (VBool true) kw) as [m|] eqn:E; [|reflexivity].
  exfalso. apply NV. destruct m as [st|T h].
  2:{ unfold set_timeframe in E. destruct (number t) as [[?| | |]|]; try discriminate.
      destruct (Rlt_dec _ _); [|discriminate].
      destruct (setting "rtol" _ _ _ _); [|discriminate].
      destruct (setting "atol" _ _ _ _); [|discriminate].
      destruct (setting "max_stepsize" _ _ _ _); [|discriminate].
      destruct (setting "min_stepsize" _ _ _ _); [|discriminate].
      destruct (setting "max_factor" _ _ _ _); [|discriminate].
      destruct (setting "min_factor" _ _ _ _); [|discriminate].
      destruct (check_vn_arg kw); [|discriminate]. destruct (flag _ _ _); [|discriminate].
      destruct (setting "safety_factor" _ _ _ _); [|discriminate].
      destruct (setting "factor_recovery" _ _ _ _); discriminate. }
  destruct (accepted t kw st E) as
    (A1 & A2 & A3 & A4 & A5 & A6 & A7 & A8 & A9 & A10 & A11 & A12 & A13 & A14).
  pose proof (setting_unit "rtol" kw (1 / 1000) ltac:(lra)) as B3. rewrite A3 in B3.
  pose proof (setting_unit "atol" kw (1 / 1000000) ltac:(lra)) as B4. rewrite A4 in B4.
  pose proof (setting_above "max_stepsize" kw (1 / 100000000) 100 ltac:(lra)) as B5. rewrite A5 in B5.
  pose proof (setting_min kw (max_step st) (proj1 B5)) as B6. rewrite A6 in B6.
  pose proof (setting_above "max_factor" kw 1 2 ltac:(lra)) as B7. rewrite A7 in B7.
  pose proof (setting_unit "min_factor" kw (2 / 10) ltac:(lra)) as B8. rewrite A8 in B8.
  pose proof (setting_unit "safety_factor" kw (9 / 10) ltac:(lra)) as B12. rewrite A12 in B12.
  pose proof (setting_above "factor_recovery" kw 0 50 ltac:(lra)) as B13. rewrite A13 in B13.
  unfold valid. repeat split; intros ->.
  - apply (proj1 (proj2 B3) v G).
  - apply (proj1 (proj2 B4) v G).
  - apply (proj1 (proj2 B5) v G).
  - destruct B6 as [(m & M1 & M2 & M3) [Q _]]. specialize (Q v G). rewrite M1 in Q.
    apply number_real in Q. destruct (lookup "max_stepsize" kw) as [mx|] eqn:L.
    + apply given_lookup in L. exists (Some mx). split; [|exact L]. exists m.
      split; [exact Q|]. split; [exact M2|].
      destruct (proj1 (proj2 B5) mx L) as [N _].
      destruct (max_step st) as [q| | |]; try discriminate.
      * right. exists q. split; [apply number_real, N|]. apply nlt_fin, M3.
      * left. apply number_pinf, N.
    + assert (NG : forall m, ~ given kw "max_stepsize" m)
        by (intros m' G'; apply given_lookup in G'; congruence).
      exists None. split; [|exact NG]. exists m. split; [exact Q|]. split; [exact M2|].
      rewrite (proj2 (proj2 B5) NG) in M3. apply nlt_fin, M3.
  - apply (proj1 (proj2 B7) v G).
  - apply (proj1 (proj2 B8) v G).
  - unfold flag in A11. apply given_lookup in G. rewrite G in A11.
    destruct v; try discriminate. eauto.
  - apply (proj1 (proj2 B12) v G).
  - apply (proj1 (proj2 B13) v G).
Qed.

(** A non-positive, infinite, NaN or non-numeric timeframe is refused in both modes. *)
Theorem C42_timeframe : forall timeframe ad kw m, set_timeframe timeframe ad kw = Some m ->
  exists T, real_of timeframe T /\ 0 < T.
Proof.
  intros t ad kw m E. unfold set_timeframe in E. destruct (number t) as [[T| | |]|] eqn:N; try discriminate.
  destruct (Rlt_dec 0 T); [|discriminate]. exists T. split; [apply number_real, N|assumption].
Qed.
(** Constant steps: accepted exactly with a positive step size, which is stored. *)
Theorem C42_constant : forall timeframe kw T h,
  set_timeframe timeframe (VBool false) kw = Some (Constant T h) <->
  real_of timeframe T /\ 0 < T /\ exists v, given kw "timestep" v /\ number v = Some h /\ above 0 v.
Proof.
  intros t kw T h. unfold set_timeframe. rewrite <- number_real.
  destruct (number t) as [[T'| | |]|].
  2-5: split; [discriminate|intros (Q & _); discriminate].
  destruct (Rlt_dec 0 T') as [P|P].
  2:{ split; [discriminate|]. intros (Q & R & _). injection Q as ->. contradiction. }
  destruct (lookup "timestep" kw) as [v|] eqn:L.
  - destruct (number v) as [x|] eqn:F.
    + destruct (nlt (Fin 0) x) eqn:U.
      * split.
        -- intros Q. injection Q as -> ->. split; [reflexivity|]. split; [exact P|].
           exists v. split; [apply given_lookup, L|]. split; [exact F|]. apply (above_spec 0 v h F), U.
        -- intros (Q & _ & w & G & N & _). injection Q as ->. apply given_lookup in G. congruence.
      * split; [discriminate|]. intros (Q & _ & w & G & N & A). apply given_lookup in G.
        rewrite L in G. injection G as <-. apply (above_spec 0 v x F) in A. congruence.
    + split; [discriminate|]. intros (Q & _ & w & G & N & A). apply given_lookup in G. congruence.
  - split; [discriminate|]. intros (Q & _ & w & G & N & A). apply given_lookup in G. congruence.
Qed.

(** Valid settings without [check_vN] are accepted. *)
Theorem C42_accepts_partial : forall timeframe T kw, real_of timeframe T -> 0 < T ->
  (forall k v, given kw k v -> valid kw k v) -> (forall v, ~ given kw "check_vN" v) ->
  exists st, set_timeframe timeframe (VBool true) kw = Some (Adaptive st).
Proof.
  intros t T kw RT TP V NC. apply number_real in RT. unfold set_timeframe. rewrite RT.
  destruct (Rlt_dec 0 T) as [_|]; [|contradiction].
  pose proof (setting_unit "rtol" kw (1 / 1000) ltac:(lra)) as B3.
  destruct (setting "rtol" _ _ _ _) as [r|].
  2:{ exfalso. destruct B3 as (v & G & N). apply N.
      destruct (V "rtol" v G) as (Q1 & Q2 & Q3 & Q4 & Q5 & Q6 & Q7 & Q8 & Q9); auto. }
  pose proof (setting_unit "atol" kw (1 / 1000000) ltac:(lra)) as B4.
  destruct (setting "atol" _ _ _ _) as [a|].
  2:{ exfalso. destruct B4 as (v & G & N). apply N.
      destruct (V "atol" v G) as (Q1 & Q2 & Q3 & Q4 & Q5 & Q6 & Q7 & Q8 & Q9); auto. }
  pose proof (setting_above "max_stepsize" kw (1 / 100000000) 100 ltac:(lra)) as B5.
  destruct (setting "max_stepsize" _ _ _ _) as [mx|].
  2:{ exfalso. destruct B5 as (v & G & N). apply N.
      destruct (V "max_stepsize" v G) as (Q1 & Q2 & Q3 & Q4 & Q5 & Q6 & Q7 & Q8 & Q9); auto. }
  pose proof (setting_min kw mx (proj1 B5)) as B6.
  destruct (setting "min_stepsize" _ _ _ _) as [mn|].
  2:{ exfalso. destruct B6 as (v & G & N). apply N.
      destruct (V "min_stepsize" v G) as (_ & _ & _ & Q & _). destruct (Q eq_refl) as (m & (rr & R1 & R2 & R3) & GM).
      exists rr. split; [exact R1|]. split; [exact R2|]. destruct m as [m|].
      - destruct (proj1 (proj2 B5) m GM) as [NM _]. destruct R3 as [->|(q & Q1 & Q2)].
        + cbn in NM. injection NM as <-. reflexivity.
        + apply number_real in Q1. rewrite Q1 in NM. injection NM as <-. apply nlt_fin, Q2.
      - rewrite (proj2 (proj2 B5) GM). apply nlt_fin, R3. }
  pose proof (setting_above "max_factor" kw 1 2 ltac:(lra)) as B7.
  destruct (setting "max_factor" _ _ _ _) as [xf|].
  2:{ exfalso. destruct B7 as (v & G & N). apply N.
      destruct (V "max_factor" v G) as (Q1 & Q2 & Q3 & Q4 & Q5 & Q6 & Q7 & Q8 & Q9); auto. }
  pose proof (setting_unit "min_factor" kw (2 / 10) ltac:(lra)) as B8.
  destruct (setting "min_factor" _ _ _ _) as [nf|].
  2:{ exfalso. destruct B8 as (v & G & N). apply N.
      destruct (V "min_factor" v G) as (Q1 & Q2 & Q3 & Q4 & Q5 & Q6 & Q7 & Q8 & Q9); auto. }
  unfold check_vn_arg. destruct (lookup "check_vN" kw) as [cv|] eqn:LC.
  { exfalso. apply (NC cv), given_lookup, LC. }
  unfold flag. destruct (lookup "max_speed" kw) as [ms|] eqn:LM.
  - apply given_lookup in LM. destruct (V "max_speed" ms LM) as (_ & _ & _ & _ & _ & _ & Q & _).
    destruct (Q eq_refl) as [b ->].
    pose proof (setting_unit "safety_factor" kw (9 / 10) ltac:(lra)) as B12.
    destruct (setting "safety_factor" _ _ _ _) as [sf|].
    2:{ exfalso. destruct B12 as (v & G & N). apply N.
      destruct (V "safety_factor" v G) as (Q1 & Q2 & Q3 & Q4 & Q5 & Q6 & Q7 & Q8 & Q9); auto. }
    pose proof (setting_above "factor_recovery" kw 0 50 ltac:(lra)) as B13.
    destruct (setting "factor_recovery" _ _ _ _) as [rc|]; [eauto|].
    exfalso. destruct B13 as (v & G & N). apply N.
      destruct (V "factor_recovery" v G) as (Q1 & Q2 & Q3 & Q4 & Q5 & Q6 & Q7 & Q8 & Q9); auto.
  - pose proof (setting_unit "safety_factor" kw (9 / 10) ltac:(lra)) as B12.
    destruct (setting "safety_factor" _ _ _ _) as [sf|].
    2:{ exfalso. destruct B12 as (v & G & N). apply N.
      destruct (V "safety_factor" v G) as (Q1 & Q2 & Q3 & Q4 & Q5 & Q6 & Q7 & Q8 & Q9); auto. }
    pose proof (setting_above "factor_recovery" kw 0 50 ltac:(lra)) as B13.
    destruct (setting "factor_recovery" _ _ _ _) as [rc|]; [eauto|].
    exfalso. destruct B13 as (v & G & N). apply N.
      destruct (V "factor_recovery" v G) as (Q1 & Q2 & Q3 & Q4 & Q5 & Q6 & Q7 & Q8 & Q9); auto.
Qed.

(** A [check_vN] argument, valid or not, always raises. *)
Theorem C42_check_vN_refuted : forall timeframe kw v, given kw "check_vN" v ->
  set_timeframe timeframe (VBool true) kw = None.
Proof.
  intros t kw v G. destruct (set_timeframe t (VBool true) kw) as [m|] eqn:E; [|reflexivity].
  exfalso. destruct m as [st|T h].
  - destruct (accepted t kw st E) as (_ & _ & _ & _ & _ & _ & _ & _ & L & _).
    apply given_lookup in G. congruence.
  - unfold set_timeframe in E. destruct (number t) as [[?| | |]|]; try discriminate.
    destruct (Rlt_dec _ _); [|discriminate].
    destruct (setting "rtol" _ _ _ _); [|discriminate].
    destruct (setting "atol" _ _ _ _); [|discriminate].
    destruct (setting "max_stepsize" _ _ _ _); [|discriminate].
    destruct (setting "min_stepsize" _ _ _ _); [|discriminate].
    destruct (setting "max_factor" _ _ _ _); [|discriminate].
    destruct (setting "min_factor" _ _ _ _); [|discriminate].
    destruct (check_vn_arg kw); [|discriminate]. destruct (flag _ _ _); [|discriminate].
    destruct (setting "safety_factor" _ _ _ _); [|discriminate].
    destruct (setting "factor_recovery" _ _ _ _); discriminate.
Qed.

(** The first step is 1 s whatever the limits: a maximum step size of half a second is accepted
    and exceeded by the first step. *)
Lemma given_one : forall a b k v, given [(a, b)] k v -> k = a /\ v = b.
Proof.
  intros a b k v G. inversion G; subst; [auto|].
  match goal with H : given [] _ _ |- _ => inversion H end.
Qed.
Definition kw_half : list (string * val) := [("max_stepsize", VFloat (Fin (1 / 2)))].
Lemma half_valid : forall k v, given kw_half k v -> valid kw_half k v.
Proof.
  intros k v G. apply given_one in G. destruct G as [-> ->].
  unfold valid. repeat split; intros Q; try discriminate.
  right. exists (1 / 2). split; [left; reflexivity|lra].
Qed.
Theorem C42_start_step_refuted : exists st,
  set_timeframe (VInt 3600) (VBool true) kw_half = Some (Adaptive st) /\
  max_step st = Fin (1 / 2) /\ start_step st > 1 / 2.
Proof.
  destruct (C42_accepts_partial (VInt 3600) 3600 kw_half) as [st E].
  - right. left. exists 3600%Z. auto.
  - lra.
  - exact half_valid.
  - intros v G. apply given_one in G. destruct G; discriminate.
  - exists st. split; [exact E|].
    destruct (accepted _ _ _ E) as (_ & _ & _ & _ & A5 & A6 & _ & _ & _ & _ & _ & _ & _ & A14).
    rewrite A14. split; [|lra].
    pose proof (setting_above "max_stepsize" kw_half (1 / 100000000) 100 ltac:(lra)) as B.
    rewrite A5 in B. destruct (proj1 (proj2 B) (VFloat (Fin (1 / 2))) ltac:(constructor)) as [N _].
    cbn in N. congruence.
Qed.
(** Unknown names are ignored: a misspelt setting is accepted without effect. *)
Theorem C42_unknown_refuted : exists st,
  set_timeframe (VInt 3600) (VBool true) [("max_step", VInt 5)] = Some (Adaptive st) /\
  max_step st = Fin 100.
Proof.
  destruct (C42_accepts_partial (VInt 3600) 3600 [("max_step", VInt 5)]) as [st E].
  - right. left. exists 3600%Z. auto.
  - lra.
  - intros k v G. apply given_one in G. destruct G as [-> ->].
    unfold valid. repeat split; intros Q; discriminate.
  - intros v G. apply given_one in G. destruct G; discriminate.
  - exists st. split; [exact E|].
    apply (proj2 (C42_stored _ _ _ E "max_stepsize" (max_step st) 100 ltac:(cbn; tauto))).
    intros v G. apply given_one in G. destruct G; discriminate.
Qed.

Print Assumptions C42_ranges.
Print Assumptions C42_stored.
Print Assumptions C42_rejects.
Print Assumptions C42_timeframe.
Print Assumptions C42_constant.
Print Assumptions C42_accepts_partial.
Print Assumptions C42_check_vN_refuted.
Print Assumptions C42_start_step_refuted.
Print Assumptions C42_unknown_refuted.
