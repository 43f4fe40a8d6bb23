(** C188: settings and initialisation. *)
From Coq Require Import Reals List Arith Bool Lra Lia.
From Verif Require Import MSolver MRun SRun LRun MSetup LSetup.
Import ListNotations.
Open Scope R_scope.

(** ** Which arrays the parts use *)
Definition wf (e : env) : Prop :=
  (v_stable e < v_next e)%nat /\ (v_factor e < v_next e)%nat /\
  match v_held e with Some (a, b) => (a < v_next e)%nat /\ (b < v_next e)%nat | None => v_ready e = false end.
Lemma wf_set e t : (match v_held e with Some (a, b) => (a < v_next e)%nat /\ (b < v_next e)%nat | None => v_ready e = false end) -> wf (set_time e t).
Proof.
  intro H. unfold wf. cbn. split; [lia|]. split; [lia|]. destruct (v_held e) as [[a b]|]; [lia|exact H].
Qed.
(** Either the time frame was never set or the references are in order. *)
Definition sound (e : env) : Prop := (v_set e = None /\ v_held e = None /\ v_ready e = false) \/ (v_set e <> None /\ wf e).
Lemma sound_set e t : sound e -> sound (set_time e t).
Proof.
  intros H. right. split; [discriminate|]. apply wf_set.
  destruct H as [(_ & -> & R)|(_ & _ & _ & W)]; [exact R|exact W].
Qed.
Lemma sound_init l e r e' : sound e -> initialize l e r = Some e' -> sound e'.
Proof.
  intros H E. unfold initialize in E. destruct (v_set e) as [t|] eqn:T; [|discriminate]. injection E as <-. right.
  assert (S' : sound (if r then set_time e t else e)) by (destruct r; [apply sound_set|]; exact H).
  cbn [v_set]. split; [destruct r; cbn; congruence|]. unfold wf. cbn.
  destruct S' as [(N & _)|(_ & W1 & W2 & _)]; [destruct r; cbn in N; congruence|]. repeat split; assumption.
Qed.
Lemma sound_prepare l cs : forall e e', sound e -> prepare l e cs = Some e' -> sound e'.
Proof.
  induction cs as [|c cs IH]; intros e e' H E; cbn in E; [injection E as <-; exact H|].
  destruct c as [t|r]; cbn in E.
  - apply (IH _ _ (sound_set e t H) E).
  - destruct (initialize l e r) as [e1|] eqn:I; [|discriminate]. apply (IH e1); [apply (sound_init l e r); assumption|exact E].
Qed.
Lemma sound0 : sound env0. Proof. left. repeat split. Qed.
Lemma prepare_app l a b : forall e, prepare l e (a ++ b) = match prepare l e a with Some e' => prepare l e' b | None => None end.
Proof. induction a as [|c a IH]; intro e; cbn; [reflexivity|]. destruct (prepare1 l e c); [apply IH|reflexivity]. Qed.

(** The first objection in the order of the parts. *)
Fixpoint first_objection (ps : list says) : option R :=
  match ps with [] => None | (_, Some d) :: _ => Some d | (_, None) :: r => first_objection r end.
(** The first objection of a part that looks up the arrays in the environment. *)
Fixpoint first_asking (ps : list says) : option R :=
  match ps with [] => None | (Asks, Some d) :: _ => Some d | _ :: r => first_asking r end.

Lemma object_flag e m : v_flag (object e m) (v_stable (object e m)) = (if (v_stable e =? fst (refs e m))%nat then false else v_flag e (v_stable e)).
Proof. reflexivity. Qed.
Lemma hears e ps : (forall m, fst (refs e m) = v_stable e) -> v_flag e (v_stable e) = true -> snd (predictor e ps) = first_objection ps.
Proof.
  revert e. induction ps as [|[m [d|]] ps IH]; intros e R F; cbn [predictor first_objection]; [reflexivity| |].
  - rewrite object_flag, R, Nat.eqb_refl. reflexivity.
  - rewrite F. apply IH; assumption.
Qed.
Lemma deaf e ps : fst (refs e Held) <> v_stable e -> v_flag e (v_stable e) = true -> snd (predictor e ps) = first_asking ps.
Proof.
  revert e. induction ps as [|[m [d|]] ps IH]; intros e R F; cbn [predictor first_asking]; [reflexivity| |].
  - rewrite object_flag. destruct m.
    + destruct (Nat.eqb_spec (v_stable e) (fst (refs e Held))) as [Q|_]; [congruence|]. rewrite F. apply IH.
      * exact R.
      * rewrite object_flag. destruct (Nat.eqb_spec (v_stable e) (fst (refs e Held))); [congruence|exact F].
    + cbn [refs fst]. rewrite Nat.eqb_refl. reflexivity.
  - rewrite F. destruct m; apply IH; assumption.
Qed.

Lemma hears_factor e ps : (forall m, refs e m = (v_stable e, v_factor e)) -> v_flag e (v_stable e) = true ->
  let e' := fst (predictor e ps) in
  v_mf e' (v_factor e') = match first_objection ps with Some _ => lower_mf (v_mf e (v_factor e)) | None => v_mf e (v_factor e) end.
Proof.
  cbv zeta. revert e. induction ps as [|[m [d|]] ps IH]; intros e R F; cbn [predictor first_objection]; [reflexivity| |].
  - rewrite object_flag, R. cbn [fst]. rewrite Nat.eqb_refl. cbn [fst].
    change (upd (v_mf e) (snd (refs e m)) (lower_mf (v_mf e (snd (refs e m)))) (v_factor e) = lower_mf (v_mf e (v_factor e))).
    rewrite R. cbn [snd]. unfold upd. rewrite Nat.eqb_refl. reflexivity.
  - rewrite F. apply IH; assumption.
Qed.
Lemma kept_limits l a n : (steps_kept l a n <= Nat.min (l_save l) (l_ram l))%nat.
Proof.
  unfold steps_kept. set (k := if a then (100 * n)%nat else n). clearbody k. cbv zeta.
  destruct (Nat.ltb_spec (l_save l) k), (Nat.ltb_spec (l_ram l) k), (Nat.ltb_spec (l_save l) (l_ram l)); cbn [orb]; lia.
Qed.
(** Every objection is heard and lowers the largest factor, and the arrays fit and keep to the limits, if
    [initialize_sim] is the last call, whatever was called before. *)
Theorem C188_heard : forall l cs r e ps err, prepare l env0 (cs ++ [Initialize r]) = Some e ->
  startable e = true /\ v_rows e = S (v_num e) /\ (v_num e <= Nat.min (l_save l) (l_ram l))%nat /\
  heard e ps err = match first_objection ps with Some d => OUnstable d | None => OStable [] err end /\
  (let e' := fst (predictor (clear e) ps) in
   v_mf e' (v_factor e') = match first_objection ps with Some _ => lower_mf (v_mf e (v_factor e)) | None => v_mf e (v_factor e) end).
Proof.
  intros l cs r e ps err E. rewrite prepare_app in E. destruct (prepare l env0 cs) as [e1|] eqn:P; [|discriminate].
  cbn [prepare prepare1] in E. destruct (initialize l e1 r) as [e2|] eqn:I; [|discriminate]. injection E as <-.
  unfold initialize in I. destruct (v_set e1) as [t|]; [|discriminate]. injection I as <-. split; [reflexivity|]. split; [reflexivity|].
  split; [apply kept_limits|]. split.
  - unfold heard. rewrite hears; [reflexivity| |].
    + intros [|]; reflexivity.
    + cbn. unfold upd. rewrite Nat.eqb_refl. reflexivity.
  - cbv zeta. rewrite hears_factor; [reflexivity| |].
    + intros [|]; reflexivity.
    + cbn. unfold upd. rewrite Nat.eqb_refl. reflexivity.
Qed.
Print Assumptions C188_heard.

(** If [set_timeframe] is called after [initialize_sim], the environment still counts as initialised, but no
    objection of a pipe, storage or heat exchanger is heard. *)
Theorem C188_unheard_refuted : forall l cs t e0 e ps err, prepare l env0 cs = Some e0 -> startable e0 = true ->
  prepare l env0 (cs ++ [SetTime t]) = Some e ->
  startable e = true /\
  heard e ps err = match first_asking ps with Some d => OUnstable d | None => OStable [] err end.
Proof.
  intros l cs t e0 e ps err P S0 E. rewrite prepare_app, P in E. cbn in E. injection E as <-. split; [exact S0|].
  pose proof (sound_prepare l cs _ _ sound0 P) as W. destruct W as [(_ & _ & N)|(_ & _ & _ & W)]; [unfold startable in S0; congruence|].
  unfold heard. rewrite deaf; [reflexivity| |].
  - cbn. destruct (v_held e0) as [[a b]|]; [cbn; lia|unfold startable in S0; congruence].
  - cbn. unfold upd. rewrite Nat.eqb_refl. reflexivity.
Qed.
Print Assumptions C188_unheard_refuted.

(** The largest factor of the environment is lowered by every objection that is heard, by none of a part
    that holds the old array. *)
Lemma keeps_factor e ps : snd (refs e Held) <> v_factor e -> fst (refs e Held) <> v_stable e -> v_flag e (v_stable e) = true ->
  (forall p, In p ps -> fst p = Held) ->
  let e' := fst (predictor e ps) in v_mf e' (v_factor e') = v_mf e (v_factor e).
Proof.
  revert e. induction ps as [|[m [d|]] ps IH]; intros e R2 R F A; cbn [predictor fst]; [reflexivity| |].
  - assert (m = Held) as -> by (apply (A (m, Some d)); left; reflexivity).
    rewrite object_flag. destruct (Nat.eqb_spec (v_stable e) (fst (refs e Held))) as [Q|_]; [congruence|]. rewrite F. cbv zeta in *.
    rewrite IH.
    + change (upd (v_mf e) (snd (refs e Held)) (lower_mf (v_mf e (snd (refs e Held)))) (v_factor e) = v_mf e (v_factor e)).
      unfold upd. destruct (Nat.eqb_spec (v_factor e) (snd (refs e Held))); [congruence|reflexivity].
    + exact R2.
    + exact R.
    + rewrite object_flag. destruct (Nat.eqb_spec (v_stable e) (fst (refs e Held))); [congruence|exact F].
    + intros p Hp. apply A. right. exact Hp.
  - rewrite F. apply IH; try assumption. intros p Hp. apply A. right. exact Hp.
Qed.
Lemma asking_none ps : (forall p, In p ps -> fst p = Held) -> first_asking ps = None.
Proof.
  induction ps as [|[m d] ps IH]; intro A; [reflexivity|]. assert (m = Held) as -> by (apply (A (m, d)); left; reflexivity).
  cbn. apply IH. intros p Hp. apply A. right. exact Hp.
Qed.

(** With the calls in the right order an objection makes the step smaller (or ends the run after a hundred
    attempts). *)
Theorem C188_step : forall l cs r e ps err c s d, prepare l env0 (cs ++ [Initialize r]) = Some e ->
  first_objection ps = Some d -> 1 < d -> 0 < s_h s ->
  attempt c s (heard e ps err) = ARaise \/
  exists s', attempt c s (heard e ps err) = ARetry s' /\ s_h s' * d < s_h s.
Proof.
  intros l cs r e ps err c s d E O D H. destruct (C188_heard l cs r e ps err E) as (_ & _ & _ & -> & _). rewrite O. cbn [attempt].
  destruct (Nat.eqb (S (s_cnt s)) 100); [left; reflexivity|right]. eexists. split; [reflexivity|]. cbn [s_h].
  assert (Q : s_h s / d * d = s_h s) by (field; lra).
  assert (P : 0 < s_h s / d) by (apply Rdiv_lt_0_compat; lra).
  set (x := s_h s / d) in *. assert (L : x * 0.95 * 0.9 * d < s_h s) by (rewrite <- Q; clearbody x; nra).
  unfold breach. cbn [fst]. fold x. destruct (s_vN s) as [v|]; [|exact L]. destruct (Rlt_dec (x * 0.95) v); [exact L|]. clearbody x. nra.
Qed.
Print Assumptions C188_step.
(** With [set_timeframe] as the last call the same step is accepted at once, for every network of pipes,
    storages and heat exchangers, however far the step is from being stable, and the largest factor stays. *)
Theorem C188_step_refuted : forall l cs t e0 e ps c s r, prepare l env0 cs = Some e0 -> startable e0 = true ->
  prepare l env0 (cs ++ [SetTime t]) = Some e -> (forall p, In p ps -> fst p = Held) -> 0 < r < 1 ->
  (exists code s', attempt c s (heard e ps (ENum r)) = AAccept (s_h s) code s') /\
  (let e' := fst (predictor (clear e) ps) in v_mf e' (v_factor e') = t_mf t).
Proof.
  intros l cs t e0 e ps c s r P S0 E A Hr. destruct (C188_unheard_refuted l cs t e0 e ps (ENum r) P S0 E) as (_ & ->).
  rewrite (asking_none ps A). split.
  - cbn [attempt fold_left]. destruct (Rlt_dec 0 r); [|lra]. destruct (Rlt_dec r 1); [|lra]. do 2 eexists. reflexivity.
  - rewrite prepare_app, P in E. cbn in E. injection E as <-.
    pose proof (sound_prepare l cs _ _ sound0 P) as W. destruct W as [(_ & _ & N)|(_ & _ & _ & W)]; [unfold startable in S0; congruence|].
    cbv zeta. rewrite keeps_factor; try exact A.
    + cbn. unfold upd. rewrite Nat.eqb_refl. reflexivity.
    + cbn. destruct (v_held e0) as [[a b]|]; [cbn; lia|unfold startable in S0; congruence].
    + cbn. destruct (v_held e0) as [[a b]|]; [cbn; lia|unfold startable in S0; congruence].
    + cbn. unfold upd. rewrite Nat.eqb_refl. reflexivity.
Qed.
Print Assumptions C188_step_refuted.

(** ** Whether the arrays fit *)
Lemma ready_rows l cs : forall e e', (v_ready e = true -> (1 <= v_rows e)%nat) -> prepare l e cs = Some e' -> v_ready e' = true -> (1 <= v_rows e')%nat.
Proof.
  induction cs as [|c cs IH]; intros e e' H E; cbn in E; [injection E as <-; exact H|].
  destruct c as [t|r]; cbn in E; [apply (IH (set_time e t)); assumption|].
  destruct (initialize l e r) as [e1|] eqn:I; [|discriminate]. apply (IH e1); [|exact E].
  unfold initialize in I. destruct (v_set e); [|discriminate]. injection I as <-. cbn. lia.
Qed.
(** After [initialize_sim] the run is the one C07 speaks about. *)
Theorem C188_fit : forall l cs r e, prepare l env0 (cs ++ [Initialize r]) = Some e ->
  forall (Row : Type) (zero row0 : Row) fuel m captures tf steps,
  run_with zero fuel m captures (v_rows e) (v_num e) tf row0 steps = run zero fuel m captures (v_num e) tf row0 steps.
Proof.
  intros l cs r e E Row zero row0 fuel m captures tf steps. destruct (C188_heard l cs r e [] ENan E) as (_ & -> & _ & _).
  unfold run_with, run, run_init. cbn [Nat.sub]. rewrite Nat.sub_0_r. reflexivity.
Qed.
Print Assumptions C188_fit.
(** After a later [set_timeframe] all is well for runs of fewer steps than the arrays have rows and than the
    new number of steps.  With disk saving, steps beyond the new number are replaced by rows of zeros.
    If the new number is above the number of rows, the run breaks off at the end of the arrays. *)
Theorem C188_arrays_refuted : forall l cs t e0 e, prepare l env0 cs = Some e0 -> startable e0 = true ->
  prepare l env0 (cs ++ [SetTime t]) = Some e ->
  forall (Row : Type) (zero row0 : Row) fuel captures tf steps n, ends_at steps tf n -> (n <= fuel)%nat ->
  ((n < t_num t)%nat -> (S n < v_rows e0)%nat -> forall m,
     run_with zero fuel m captures (v_rows e) (v_num e) tf row0 steps = RDone (history row0 steps n)) /\
  ((1 <= t_num t < n)%nat -> (S n < v_rows e0)%nat ->
     run_with zero fuel Disk captures (v_rows e) (v_num e) tf row0 steps
     = RDone (history row0 steps (t_num t) ++ repeat (0, zero) (n - t_num t))) /\
  ((v_rows e0 <= t_num t)%nat -> (v_rows e0 <= n)%nat -> forall m,
     run_with zero fuel m captures (v_rows e) (v_num e) tf row0 steps = if captures then ROutOfBounds else RIndexError).
Proof.
  intros l cs t e0 e P S0 E Row zero row0 fuel captures tf steps n He Hf. rewrite prepare_app, P in E. cbn in E. injection E as <-.
  assert (R1 : (1 <= v_rows e0)%nat) by (apply (ready_rows l cs env0 e0); [discriminate|exact P|exact S0]).
  cbn [set_time v_rows v_num]. destruct (v_rows e0) as [|N0]; [lia|]. set (N1 := t_num t).
  assert (HC : match (if captures then Some (S N0) else None) with Some c => c = S N0 | None => True end) by (destruct captures; [reflexivity|exact I]).
  unfold run_with. rewrite (start_st zero row0 steps N0 N1). split; [|split].
  - intros A B m. apply (short_run zero row0 steps N0 N1 n tf _ He HC m) with (d := n); try lia. destruct m; [lia|exact I].
  - intros A B. rewrite (first_run zero row0 steps N0 N1 n tf _ He HC) with (d := N1) by lia. f_equal.
    unfold chunk. rewrite firstn_app, blk_len. rewrite (firstn_all2 (blk row0 steps 0 (S N1))) by (rewrite blk_len; lia).
    rewrite firstn_repeat by lia. reflexivity.
  - intros A B m. rewrite (long_run zero row0 steps N0 N1 n tf _ He HC) with (d := N0) by lia. destruct captures; reflexivity.
Qed.
Print Assumptions C188_arrays_refuted.

(** ** Case: a few seconds set and initialised, then changed to a minute or twelve *)
Definition ex_lim : limits := {| l_save := 100; l_ram := 1000 |}.
Definition few : setting := {| t_num := 3; t_adaptive := true; t_mf := 2 |}.
Definition minute : setting := {| t_num := 60; t_adaptive := true; t_mf := 2 |}.
Definition twice : setting := {| t_num := 720; t_adaptive := true; t_mf := 3 |}.
Definition pipes : list says := [(Held, None); (Held, Some 7); (Held, Some 2)].
Example C188_ex : exists e0 e1 e2,
  prepare ex_lim env0 [SetTime few; Initialize false] = Some e0 /\ startable e0 = true /\ v_rows e0 = 101%nat /\
  heard e0 pipes (ENum (1 / 2)) = OUnstable 7 /\
  prepare ex_lim env0 ([SetTime few; Initialize false] ++ [SetTime minute]) = Some e1 /\
  heard e1 pipes (ENum (1 / 2)) = OStable [] (ENum (1 / 2)) /\
  run_with 0%nat 80 Disk true (v_rows e1) (v_num e1) (INR 80) 0%nat ex_steps
    = RDone (history 0%nat ex_steps 60 ++ repeat (0, 0%nat) 20) /\
  prepare ex_lim env0 ([SetTime few; Initialize false] ++ [SetTime twice]) = Some e2 /\
  run_with 0%nat 720 Disk true (v_rows e2) (v_num e2) (INR 720) 0%nat ex_steps = ROutOfBounds /\
  (exists e3, prepare ex_lim env0 [SetTime few; Initialize false; SetTime twice; Initialize true] = Some e3 /\
     heard e3 pipes (ENum (1 / 2)) = OUnstable 7).
Proof.
  destruct (prepare ex_lim env0 [SetTime few; Initialize false]) as [e0|] eqn:P; [|cbn in P; discriminate].
  destruct (C188_heard ex_lim [SetTime few] false e0 pipes (ENum (1 / 2)) P) as (S0 & RW & _ & HE & _).
  assert (RN : v_rows e0 = 101%nat) by (cbn in P; injection P as <-; reflexivity).
  assert (P1 : prepare ex_lim env0 ([SetTime few; Initialize false] ++ [SetTime minute]) = Some (set_time e0 minute)) by (rewrite prepare_app, P; reflexivity).
  assert (P2 : prepare ex_lim env0 ([SetTime few; Initialize false] ++ [SetTime twice]) = Some (set_time e0 twice)) by (rewrite prepare_app, P; reflexivity).
  exists e0, (set_time e0 minute), (set_time e0 twice). split; [reflexivity|]. split; [exact S0|]. split; [exact RN|].
  split; [exact HE|]. split; [exact P1|]. split; [apply (C188_unheard_refuted _ _ _ _ _ pipes _ P S0 P1)|].
  split; [|split; [exact P2|split]].
  - destruct (C188_arrays_refuted _ _ _ _ _ P S0 P1 nat 0%nat 0%nat 80 true (INR 80) ex_steps 80%nat (ex_steps_end 80) (le_n _)) as (_ & Q & _).
    rewrite RN in Q. apply Q; cbn [t_num minute]; lia.
  - destruct (C188_arrays_refuted _ _ _ _ _ P S0 P2 nat 0%nat 0%nat (720)%nat true (INR 720) ex_steps (720)%nat (ex_steps_end _) (le_n _)) as (_ & _ & Q).
    rewrite RN in Q. cbn [t_num twice] in Q. apply Q.
    + apply Nat.leb_le. reflexivity.
    + apply Nat.leb_le. reflexivity.
  - destruct (prepare ex_lim env0 ([SetTime few; Initialize false; SetTime twice] ++ [Initialize true])) as [e3|] eqn:P3.
    + exists e3. split; [exact P3|]. apply (C188_heard ex_lim _ true e3 pipes _ P3).
    + exfalso. rewrite (prepare_app _ ([SetTime few; Initialize false] ++ [SetTime twice])) in P3. rewrite P2 in P3. cbn [prepare prepare1] in P3. unfold initialize in P3. cbn [v_set set_time] in P3. discriminate.
Qed.
