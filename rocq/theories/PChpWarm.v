(** C181 A restart continues from the remaining heat.

    Model: [MChp] (chp_plant.py 441-449, 675-855).  The remaining heat of a plant that was
    switched off is [h_fdown] of the last row, the thermal start-up factor is [h_fth]. *)
From Coq Require Import Reals List Arith Bool Lia Lra Psatz.
From Verif Require Import MChp SChp LChp LChpCurve LChpRun LChpEx LChpWarm.
Import ListNotations.
Open Scope R_scope.

(** The table of start-up factors reaches (nearly) full power; [__init__] cuts it at the second
    closest to 0.999, see [C181_table]. *)
Definition full_table (P : chp_par) : Prop :=
  (0 < p_nsteps P)%nat /\ 0.995 <= chp_startup_th (INR (p_nsteps P)).

(** The table length chosen by the constructor (444-449) is such a length. *)
Theorem C181_table : forall P,
  (forall j, INR j < 100000 ->
     Rabs (chp_startup_th (INR (p_nsteps P)) - 0.999) <= Rabs (chp_startup_th (INR j) - 0.999)) ->
  full_table P.
Proof.
  intros P H. pose proof (table_reaches (p_nsteps P) H) as T. split; [|exact T].
  destruct (p_nsteps P); [|lia]. exfalso.
  pose proof (th_mono (INR 0) 1 ltac:(cbn; lra)). pose proof th_1. lra.
Qed.
Print Assumptions C181_table.

Lemma exP_table : full_table exP.
Proof.
  split; [cbn; lia|]. change (p_nsteps exP) with 1700%nat.
  replace (INR 1700) with 1700 by (rewrite INR_IZR_INZ; reflexivity).
  unfold chp_startup_th.
  replace (- 8.61423130773867e-3 * 1 * 1700) with (- (14.644193223155739)) by lra.
  rewrite exp_Ropp.
  assert (E : 500000 < exp 14.644193223155739).
  { eapply Rlt_le_trans; [|apply exp_pow64; lra].
    apply Rlt_le_trans with (5.19 ^ 8); [lra|].
    apply pow_incr. split; [lra|]. lra. }
  set (e := exp 14.644193223155739) in *. clearbody e.
  set (c := 1 / 4.3715647889609857e-4 - 1).
  assert (C : 0 < c < 2287) by (unfold c; lra). clearbody c.
  assert (I : c * / e < 0.005).
  { apply Rmult_lt_reg_r with e; [lra|]. rewrite Rmult_assoc, Rinv_l by lra. lra. }
  assert (J : 0 < c * / e) by (apply Rmult_lt_0_compat; [lra|apply Rinv_0_lt_compat; lra]).
  set (u := c * / e) in *. clearbody u.
  apply Rmult_le_reg_r with (1 + u); [lra|]. unfold Rdiv. rewrite Rmult_assoc, Rinv_l by lra.
  lra.
Qed.

(** A plant started with heat left skips the part of the start-up that leads to this heat: to
    the first of the full seconds of the start-up curve at which the factor is closest.  (The
    index of the second counts from zero, the restart is one second before that second.) *)
Theorem C181_shortened : forall P ins on start k,
  chp_par_ok P -> (0 < p_nsteps P)%nat -> (forall k, 0 < i_dt (ins k)) ->
  let st := chp_at P (chp_init P on start) ins in
  let run := running P (chp_init P on start) ins in
  ~ run k -> run (S k) -> 0.01 < h_fdown (st k) ->
  exists j, (j < p_nsteps P)%nat /\
    (forall q, (q < p_nsteps P)%nat ->
       Rabs (chp_startup_th (INR (S j)) - h_fdown (st k)) <=
       Rabs (chp_startup_th (INR (S q)) - h_fdown (st k))) /\
    (forall q, (q < j)%nat ->
       Rabs (chp_startup_th (INR (S j)) - h_fdown (st k)) <
       Rabs (chp_startup_th (INR (S q)) - h_fdown (st k))) /\
    h_fdown (st (S k)) = 0 /\ h_stopping (st (S k)) = false /\
    (chp_startup_th (INR j) <= 0.999 ->
       h_starting (st (S k)) = true /\ h_rem (st (S k)) = INR j /\
       h_fth (st (S k)) = chp_startup_th (INR j) /\
       h_fel (st (S k)) = clip01 (chp_startup_el (INR j)) /\
       h_fgas (st (S k)) = clip01 (chp_startup_gas (INR j))) /\
    (0.999 < chp_startup_th (INR j) ->
       h_starting (st (S k)) = false /\ h_rem (st (S k)) = 0 /\ h_fth (st (S k)) = 1 /\
       h_fel (st (S k)) = 1 /\ h_fgas (st (S k)) = 1).
Proof.
  intros P ins on start k HP N Dt st run A B H.
  assert (L : 0 < p_low P) by apply HP. assert (Rm : 0 < p_ramp P) by apply HP.
  assert (O : 0 < p_off P) by apply HP.
  assert (Sa : sane P (st k)) by (apply at_sane; auto; apply init_sane).
  assert (Z : h_row (st k) = 0).
  { destruct (Req_dec (h_row (st k)) 0); [assumption|contradiction]. }
  change (st (S k)) with (chp_step P (st k) (ins k)) in *.
  unfold run, running in B. cbn [chp_at] in B. fold (st k) in B.
  destruct (start_decide P (st k) (ins k) L Rm O Sa (Dt k) Z B) as (U&_&D&S1&_).
  destruct (decide_facs P (ins k) (st k)) as (_&_&_&F4&_&_).
  destruct (step_facs P (st k) (ins k)) as (E1&E2&E3&E4&E5&E6&E7).
  destruct (process_up P (ins k) (decide P (ins k) (st k)) D) as (P1&P2&_&P4&P5).
  rewrite F4 in *.
  assert (Hot : rlt off_perc (h_fdown (st k)) = true) by (apply rlt_true; exact H).
  rewrite Hot in *.
  destruct (lookup_spec (p_nsteps P) (h_fdown (st k)) N) as (J1&J2&J3).
  set (j := argmin_abs _ _ _ _ _) in *.
  replace (i_t (ins k) + i_dt (ins k) - h_up (decide P (ins k) (st k)) + INR j) with (INR j)
    in P4, P5 by (rewrite U; ring).
  exists j. split; [exact J1|]. split; [exact J2|]. split; [exact J3|].
  rewrite E1, E2, E3, E4, E5, E6, E7, P1, P2.
  split; [reflexivity|]. split; [reflexivity|]. split.
  - intros T. exact (P5 S1 T).
  - intros T. exact (P4 S1 T).
Qed.
Print Assumptions C181_shortened.

(** Hence the thermal factor continues from the remaining heat, to within one percent of full
    power. *)
Theorem C181_continues : forall P ins on start k,
  chp_par_ok P -> full_table P -> unrejected ins -> start <= 1 ->
  (forall k c, i_ctl (ins k) = Some c -> c <= 1) ->
  let st := chp_at P (chp_init P on start) ins in
  let run := running P (chp_init P on start) ins in
  ~ run k -> run (S k) -> 0.01 < h_fdown (st k) ->
  Rabs (h_fth (st (S k)) - h_fdown (st k)) <= 0.01.
Proof.
  intros P ins on start k HP [N T] Hh Hs Hc st run A B H.
  destruct (C181_shortened P ins on start k HP N (fun k => proj1 (proj2 Hh k)) A B H)
    as (j&J1&J2&_&_&_&C1&C2). fold st in J2, C1, C2.
  assert (F1 : h_fdown (st k) <= 1).
  { assert (G : good P (i_t (ins k)) (st k)).
    { apply at_good; auto. apply init_good; auto. apply Hh. }
    destruct G as (_&G&_). apply G. }
  assert (Nr : Rabs (chp_startup_th (INR (S j)) - h_fdown (st k)) <= 0.005).
  { pose proof th_1. destruct (th_near (p_nsteps P) (h_fdown (st k)) N ltac:(lra)) as (q&Q&D).
    specialize (J2 q Q). destruct D as [D|(D&E)]; [lra|]. rewrite E in J2.
    rewrite (Rabs_left1 (_ (INR (p_nsteps P)) - _)) in J2 by lra. lra. }
  pose proof (th_second (INR j)) as Se. rewrite <- S_INR in Se.
  pose proof (th_incr (INR j) (INR (S j)) ltac:(rewrite S_INR; lra)) as In.
  assert (Nr' : - 0.0072 <= chp_startup_th (INR j) - h_fdown (st k) <= 0.005).
  { unfold Rabs in Nr. destruct (Rcase_abs _); lra. }
  destruct (Rle_dec (chp_startup_th (INR j)) 0.999) as [D|D].
  - destruct (C1 D) as (_&_&->&_). apply Rabs_le. lra.
  - destruct (C2 ltac:(lra)) as (_&_&->&_). apply Rabs_le. lra.
Qed.
Print Assumptions C181_continues.

(** The further course: as long as the plant keeps running, the start-up follows its curve from
    there on until it is complete. *)
Definition on_course (dur rem : R) (s : chp) : Prop :=
  (h_starting s = true /\ h_rem s = rem /\ h_fth s = chp_startup_th dur /\
   h_fel s = clip01 (chp_startup_el dur) /\ h_fgas s = clip01 (chp_startup_gas dur)) \/
  (h_starting s = false /\ h_fth s = 1 /\ h_fel s = 1 /\ h_fgas s = 1).

Lemma started_inv P ins on start k : chp_par_ok P -> unrejected ins ->
  let st := chp_at P (chp_init P on start) ins in
  let run := running P (chp_init P on start) ins in
  ~ run k -> run (S k) ->
  forall n, (forall i, (i <= n)%nat -> run (S k + i)%nat) ->
  let s := st (S k + n)%nat in
  h_down s < h_up s /\ h_up s = i_t (ins (S k)) /\ h_fdown s <= 0.01 /\
  on_course (i_t (ins (S k + n)%nat) - i_t (ins (S k)) + h_rem (st (S k))) (h_rem (st (S k))) s /\
  (n = O -> h_starting s = false -> h_rem s = 0).
Proof.
  intros HP Hh st run A B.
  assert (L : 0 < p_low P) by apply HP. assert (Rm : 0 < p_ramp P) by apply HP.
  assert (O : 0 < p_off P) by apply HP.
  assert (Sa : forall m, sane P (st m)).
  { intros m. apply at_sane; auto; [apply init_sane|]. intros; apply Hh. }
  assert (Z : h_row (st k) = 0).
  { destruct (Req_dec (h_row (st k)) 0); [assumption|contradiction]. }
  induction n as [|n IH]; intros W; cbv zeta.
  - rewrite Nat.add_0_r in *. unfold run, running in B. cbn [chp_at] in B. fold (st k) in B.
    destruct (Hh) as [_ Hk]. destruct (Hk k) as [Dt St].
    destruct (start_decide P (st k) (ins k) L Rm O (Sa k) Dt Z B) as (U&_&D&S1&_).
    destruct (decide_facs P (ins k) (st k)) as (_&_&_&F4&_&F6).
    destruct (step_keeps P (st k) (ins k)) as (_&_&_&K4&K5&_).
    destruct (step_facs P (st k) (ins k)) as (E1&E2&E3&E4&E5&E6&E7).
    destruct (process_up P (ins k) (decide P (ins k) (st k)) D) as (P1&P2&_&P4&P5).
    change (st (S k)) with (chp_step P (st k) (ins k)) in *.
    rewrite K4, K5. split; [exact D|]. split; [rewrite U; exact (eq_sym St)|].
    split.
    { rewrite E4, P1. destruct (rlt off_perc _) eqn:Q; [lra|]. apply rlt_false in Q. exact Q. }
    set (rem := if rlt off_perc _ then INR _ else _) in *.
    replace (i_t (ins k) + i_dt (ins k) - h_up (decide P (ins k) (st k)) + rem) with rem
      in P4, P5 by (rewrite U; ring).
    replace (i_t (ins (S k)) - i_t (ins (S k)) + h_rem (chp_step P (st k) (ins k)))
      with (h_rem (chp_step P (st k) (ins k))) by ring.
    unfold on_course. rewrite E1, E2, E3, E6, E7.
    destruct (Rle_dec (chp_startup_th rem) 0.999) as [T|T].
    + destruct (P5 S1 T) as (X1&X2&X3&X4&X5). rewrite X1, X2, X3, X4, X5.
      split; [left; repeat split|]. discriminate.
    + destruct (P4 S1 ltac:(lra)) as (X1&X2&X3&X4&X5). rewrite X1, X2, X3, X4, X5.
      split; [right; repeat split|]. auto.
  - destruct (IH ltac:(intros i Hi; apply W; lia)) as (I1&I2&I3&I4&_).
    pose proof (W n ltac:(lia)) as Wn. pose proof (W (S n) ltac:(lia)) as Wn'.
    replace (S k + S n)%nat with (S (S k + n)) in * by lia.
    set (m := (S k + n)%nat) in *. set (rem := h_rem (st (S k))) in *.
    unfold run, running in Wn, Wn'. cbn [chp_at] in Wn'. fold (st m) in Wn, Wn'.
    destruct (Hh) as [_ Hk]. destruct (Hk m) as [Dt St].
    destruct (stay_decide P (st m) (ins m) L Rm (Sa m) Dt Wn Wn') as (U&D&S1&_).
    destruct (decide_facs P (ins m) (st m)) as (F1&F2&F3&F4&_&F6).
    destruct (step_keeps P (st m) (ins m)) as (_&_&_&K4&K5&_).
    destruct (step_facs P (st m) (ins m)) as (E1&E2&E3&E4&E5&E6&E7).
    change (st (S m)) with (chp_step P (st m) (ins m)).
    destruct (process_up P (ins m) (decide P (ins m) (st m))) as (P1&P2&P3&P4&P5).
    { rewrite U, D. exact I1. }
    assert (C : rlt off_perc (h_fdown (decide P (ins m) (st m))) = false)
      by (apply rlt_false; rewrite F4; exact I3).
    rewrite C in *. rewrite K4, K5, U, D. split; [exact I1|]. split; [exact I2|].
    split; [rewrite E4, P1, F4; exact I3|]. split; [|discriminate].
    assert (St' : i_t (ins (S m)) = i_t (ins m) + i_dt (ins m)) by exact St.
    rewrite U, I2, F6 in P4, P5. rewrite S1 in P3, P4, P5.
    unfold on_course. rewrite E1, E2, E3, E6, E7, St'.
    destruct I4 as [(J1&J2&_)|(J1&J2&J3&J4)].
    + rewrite J2 in P4, P5.
      destruct (Rle_dec (chp_startup_th (i_t (ins m) + i_dt (ins m) - i_t (ins (S k)) + rem)) 0.999)
        as [T|T].
      * left. exact (P5 J1 T).
      * right. destruct (P4 J1 ltac:(lra)) as (X1&_&X3&X4&X5). auto.
    + right. destruct (P3 J1) as (X1&_&X3&X4&X5). rewrite X1, X3, X4, X5, F1, F2, F3. auto.
Qed.

Theorem C181_course : forall P ins on start k n,
  chp_par_ok P -> unrejected ins ->
  let st := chp_at P (chp_init P on start) ins in
  let run := running P (chp_init P on start) ins in
  ~ run k -> (forall i, (i <= n)%nat -> run (S k + i)%nat) ->
  let rem := h_rem (st (S k)) in
  let dur := i_t (ins (S k + n)%nat) - i_t (ins (S k)) + rem in
  let s := st (S k + n)%nat in
  (h_fth s = chp_startup_th dur /\ h_fel s = clip01 (chp_startup_el dur) /\
   h_fgas s = clip01 (chp_startup_gas dur)) \/
  (h_fth s = 1 /\ h_fel s = 1 /\ h_fgas s = 1).
Proof.
  intros P ins on start k n HP Hh st run A W.
  assert (B : run (S k)) by (rewrite <- (Nat.add_0_r (S k)); apply W; lia).
  destruct (started_inv P ins on start k HP Hh A B n W) as (_&_&_&[(_&_&C)|(_&C)]&_); auto.
Qed.
Print Assumptions C181_course.

(** ** Cold starts *)

(** Nothing is left of an earlier restart once a start-up is complete. *)
Definition clean (s : chp) : Prop :=
  (h_row s <> 0 -> h_down s < h_up s) /\ (h_down s < h_up s -> h_fdown s <= 0.01) /\
  (h_starting s = false -> h_rem s = 0).

Lemma process_clean P i d : (h_down d < h_up d -> h_fdown d <= 0.01 \/ h_starting d = true) ->
  (h_starting d = false -> h_rem d = 0) ->
  let p := chp_process P i d in
  (h_down d < h_up d -> h_fdown p <= 0.01) /\ (h_starting p = false -> h_rem p = 0).
Proof.
  intros A B. cbv zeta. destruct (Rlt_dec (h_down d) (h_up d)) as [U|U].
  - specialize (A U). destruct (process_up P i d U) as (P1&_&P3&P4&P5). split.
    + intros _. rewrite P1. destruct (rlt off_perc _) eqn:E; [lra|]. apply rlt_false in E. exact E.
    + destruct (h_starting d) eqn:S.
      * destruct (Rle_dec (chp_startup_th (i_t i + i_dt i - h_up d +
          (if rlt off_perc (h_fdown d) then
             INR (argmin_abs (startuptsteps (p_nsteps P)) (h_fdown d)
                    (Rabs (chp_startup_th 1 - h_fdown d)) 0 0) else h_rem d))) 0.999) as [T|T].
        -- destruct (P5 eq_refl T) as (X&_). rewrite X. discriminate.
        -- destruct (P4 eq_refl ltac:(lra)) as (_&X&_). auto.
      * destruct A as [A|A]; [|discriminate]. destruct (P3 eq_refl) as (_&X&_). intros _.
        rewrite X. assert (E : rlt off_perc (h_fdown d) = false) by (apply rlt_false; exact A).
        rewrite E. auto.
  - split; [lra|]. unfold chp_process. assert (E : rlt (h_down d) (h_up d) = false).
    { apply rlt_false. lra. }
    rewrite E. destruct (h_stopping d); [destruct (rlt _ off_perc)|]; cbn; auto.
Qed.

Lemma step_clean P s i : chp_par_ok P -> sane P s -> 0 < i_dt i -> clean s ->
  clean (chp_step P s i).
Proof.
  intros HP Sa Dt (C1&C2&C3).
  assert (L : 0 < p_low P) by apply HP. assert (Rm : 0 < p_ramp P) by apply HP.
  assert (O : 0 < p_off P) by apply HP.
  destruct (decide_facs P i s) as (F1&F2&F3&F4&_&F6).
  destruct (step_keeps P s i) as (_&_&_&K4&K5&_).
  destruct (step_facs P s i) as (_&_&_&E4&E5&E6&E7).
  unfold clean. rewrite E4, E6, E7, K4, K5.
  destruct (Req_dec (h_row s) 0) as [Z|Z];
    destruct (Req_dec (h_row (chp_step P s i)) 0) as [Z'|Z'].
  - destruct (off_decide P s i L Rm Sa Dt Z Z') as (U&D&S1&_).
    split; [contradiction|]. apply process_clean; rewrite ?U, ?D, ?F4, ?S1, ?F6; auto.
  - destruct (start_decide P s i L Rm O Sa Dt Z Z') as (U&_&D&S1&_).
    split; [auto|]. apply process_clean; auto. rewrite S1. discriminate.
  - destruct (stop_decide P s i L Rm Sa Dt Z Z') as (U&D&S1&_).
    split; [contradiction|]. specialize (C2 (C1 Z)).
    apply process_clean; rewrite ?F4, ?S1, ?F6; auto.
  - destruct (stay_decide P s i L Rm Sa Dt Z Z') as (U&D&S1&_).
    rewrite U, D. split; [auto|]. rewrite <- U, <- D.
    apply process_clean; rewrite ?U, ?D, ?F4, ?S1, ?F6; auto.
Qed.

Lemma at_clean P ins on start k : chp_par_ok P -> (forall k, 0 < i_dt (ins k)) ->
  clean (chp_at P (chp_init P on start) ins k).
Proof.
  intros HP Dt.
  assert (L : 0 < p_low P) by apply HP. assert (Rm : 0 < p_ramp P) by apply HP.
  induction k as [|k IH]; cbn [chp_at].
  - assert (0 < p_on P /\ 0 < p_off P) by (split; apply HP).
    destruct on; unfold clean; cbn; repeat split; intros; try lra; discriminate.
  - apply step_clean; auto. apply at_sane; auto. apply init_sane.
Qed.

(** A plant that has cooled down goes through the whole start-up, if the start-up before its
    last stop was complete. *)
Theorem C181_cold_partial : forall P ins on start j k,
  chp_par_ok P -> unrejected ins ->
  let st := chp_at P (chp_init P on start) ins in
  let run := running P (chp_init P on start) ins in
  run j -> h_starting (st j) = false -> (j < k)%nat ->
  (forall i, (j < i <= k)%nat -> ~ run i) -> run (S k) -> h_fdown (st k) <= 0.01 ->
  h_rem (st (S k)) = 0 /\ h_fth (st (S k)) = chp_startup_th 0 /\
  h_fel (st (S k)) = clip01 (chp_startup_el 0) /\ h_fgas (st (S k)) = clip01 (chp_startup_gas 0).
Proof.
  intros P ins on start j k HP Hh st run Rj Sj Hjk Off B F.
  assert (L : 0 < p_low P) by apply HP. assert (Rm : 0 < p_ramp P) by apply HP.
  assert (O : 0 < p_off P) by apply HP.
  assert (Dt : forall k, 0 < i_dt (ins k)) by (intros; apply Hh).
  assert (Sa : forall m, sane P (st m)) by (intros m; apply at_sane; auto; apply init_sane).
  assert (Cl : forall m, clean (st m)) by (intros m; apply at_clean; auto).
  assert (Zr : forall i, ~ run i -> h_row (st i) = 0).
  { intros i Ni. destruct (Req_dec (h_row (st i)) 0); [assumption|contradiction]. }
  assert (Keep : forall i, h_starting (st i) = false -> h_starting (decide P (ins i) (st i)) = false ->
     h_starting (st (S i)) = false).
  { intros i _ D. change (st (S i)) with (chp_step P (st i) (ins i)).
    destruct (step_facs P (st i) (ins i)) as (_&_&_&_&_&E6&_). rewrite E6.
    destruct (Rlt_dec (h_down (decide P (ins i) (st i))) (h_up (decide P (ins i) (st i)))) as [U|U].
    - destruct (process_up P (ins i) _ U) as (_&_&P3&_). apply P3. exact D.
    - unfold chp_process. assert (E : rlt (h_down (decide P (ins i) (st i)))
        (h_up (decide P (ins i) (st i))) = false) by (apply rlt_false; lra).
      rewrite E. destruct (h_stopping _); [destruct (rlt _ off_perc)|]; cbn; exact D. }
  assert (St : forall n, (j + n <= k)%nat -> h_starting (st (j + n)%nat) = false).
  { induction n as [|n IH]; intros Hn; [rewrite Nat.add_0_r; exact Sj|].
    specialize (IH ltac:(lia)). replace (j + S n)%nat with (S (j + n)) by lia.
    assert (Z' : h_row (chp_step P (st (j + n)%nat) (ins (j + n)%nat)) = 0).
    { apply (Zr (S (j + n))). apply Off. lia. }
    apply Keep; [exact IH|].
    destruct n as [|n].
    - rewrite Nat.add_0_r in *. destruct (stop_decide P (st j) (ins j) L Rm (Sa j) (Dt j) Rj Z') as (_&_&X&_).
      rewrite X. exact IH.
    - destruct (off_decide P (st (j + S n)%nat) (ins (j + S n)%nat) L Rm (Sa _) (Dt _)) as (_&_&X&_).
      + apply Zr. apply Off. lia.
      + exact Z'.
      + rewrite X. exact IH. }
  specialize (St (k - j)%nat ltac:(lia)). replace (j + (k - j))%nat with k in St by lia.
  destruct (Cl k) as (_&_&Rk). specialize (Rk St).
  assert (Nk : ~ run k) by (apply Off; lia).
  unfold run, running in B. cbn [chp_at] in B. fold (st k) in B.
  destruct (start_decide P (st k) (ins k) L Rm O (Sa k) (Dt k) (Zr k Nk) B) as (U&_&D&S1&_).
  destruct (decide_facs P (ins k) (st k)) as (_&_&_&F4&_&F6).
  destruct (step_facs P (st k) (ins k)) as (E1&E2&E3&E4&E5&E6&E7).
  change (st (S k)) with (chp_step P (st k) (ins k)).
  destruct (process_up P (ins k) (decide P (ins k) (st k)) D) as (_&_&_&_&P5).
  assert (C : rlt off_perc (h_fdown (decide P (ins k) (st k))) = false)
    by (apply rlt_false; rewrite F4; exact F).
  rewrite C, F6, Rk, U in P5.
  replace (i_t (ins k) + i_dt (ins k) - (i_t (ins k) + i_dt (ins k)) + 0) with 0 in P5 by ring.
  destruct (P5 S1) as (_&X2&X3&X4&X5).
  { pose proof (th_mono 0 1 ltac:(lra)). pose proof th_1. lra. }
  rewrite E1, E2, E3, E7. auto.
Qed.
Print Assumptions C181_cold_partial.

(** ** What goes wrong *)

(** Start at 1 s, stop at 101 s, nothing until 601 s, restart at 602 s, stop at 702 s, nothing for
    10000 s, start. *)
Definition warmP : chp_par := mkChpPar 20000 0.5 0.32 0.5 1 0.01 60 60 1700.
Definition exW (k : nat) : chp_in :=
  match k with
  | O => mkChpIn 0 1 (Some 1) [60]
  | 1%nat => mkChpIn 1 100 (Some 0) [60]
  | 2%nat => mkChpIn 101 500 (Some 0) [60]
  | 3%nat => mkChpIn 601 1 (Some 1) [60]
  | 4%nat => mkChpIn 602 100 (Some 0) [60]
  | 5%nat => mkChpIn 702 10000 (Some 0) [60]
  | S (S (S (S (S (S n))))) => mkChpIn (10702 + INR n) 1 (Some 1) [60]
  end.
Definition exWs (k : nat) : chp := chp_at warmP (chp_init warmP false 0) exW k.
Local Arguments exWs : simpl never.

Lemma warmP_ok : chp_par_ok warmP.
Proof. unfold chp_par_ok; cbn; repeat split; lra. Qed.
Lemma warmP_table : full_table warmP.
Proof. exact exP_table. Qed.
Lemma exW_hist : unrejected exW.
Proof.
  split; [cbn; lra|]. intros k. unfold stamp.
  do 6 (destruct k as [|k]; [cbn; split; lra|]). cbn [exW i_t i_dt]. rewrite S_INR. split; lra.
Qed.
Lemma exW_cool k : cool (exW k).
Proof. apply cool60. do 6 (destruct k as [|k]; [reflexivity|]). reflexivity. Qed.
Lemma exW_dt k : 0 < i_dt (exW k).
Proof. apply exW_hist. Qed.
Lemma exW_sane k : sane warmP (exWs k).
Proof. apply at_sane; try (cbn; lra); [apply init_sane|apply exW_dt]. Qed.

(** The procedure of a stopped plant. *)
Lemma process_down P i d : h_up d <= h_down d -> h_stopping d = true ->
  let f := chp_shutdown_th (i_t i + i_dt i - h_down d) in
  let p := chp_process P i d in
  h_starting p = h_starting d /\ h_rem p = h_rem d /\ h_fth p = h_fth d /\
  (0.01 <= f -> h_fdown p = f /\ h_stopping p = true) /\
  (f < 0.01 -> h_fdown p = 0 /\ h_stopping p = false).
Proof.
  intros U S. cbv zeta. unfold chp_process. apply rlt_false in U. rewrite U, S.
  destruct (rlt (chp_shutdown_th _) off_perc) eqn:E.
  - apply rlt_true in E. unfold off_perc in E. cbn. repeat split; lra.
  - apply rlt_false in E. unfold off_perc in E. cbn. repeat split; lra.
Qed.

Lemma exW_1 : h_row (exWs 1) = 1 /\ h_up (exWs 1) = 1 /\ h_rem (exWs 1) = 0 /\
  h_fth (exWs 1) = chp_startup_th 0 /\ h_starting (exWs 1) = true.
Proof.
  change (exWs 1) with (chp_step warmP (exWs 0) (exW 0)).
  destruct (start_fwd warmP (exWs 0) (exW 0)) as (A&_&_&B&C).
  { reflexivity. } { cbn. lra. }
  { change (h_down (exWs 0)) with (- 60 - 1). cbn. lra. } { apply exW_cool. }
  assert (Nz : h_row (chp_step warmP (exWs 0) (exW 0)) <> 0) by (rewrite A; cbn; lra).
  destruct (start_decide warmP (exWs 0) (exW 0)) as (U&_&D&S1&_); try (cbn; lra);
    try apply exW_sane; try reflexivity;
    try eassumption.
  destruct (step_facs warmP (exWs 0) (exW 0)) as (E1&_&_&_&_&E6&E7).
  destruct (process_up warmP (exW 0) _ D) as (_&_&_&_&P5).
  destruct (decide_facs warmP (exW 0) (exWs 0)) as (_&_&_&F4&_&F6).
  rewrite F4, F6, U in P5.
  change (h_fdown (exWs 0)) with 0 in P5. change (h_rem (exWs 0)) with 0 in P5.
  assert (C0 : rlt off_perc 0 = false) by (apply rlt_false; unfold off_perc; lra).
  rewrite C0 in P5. replace (_ - _ + 0) with 0 in P5 by ring.
  destruct (P5 S1) as (X1&X2&X3&_).
  { pose proof (th_mono 0 1 ltac:(lra)). pose proof th_1. lra. }
  rewrite A, B, E1, E6, E7, X1, X2, X3. cbn. repeat split; lra.
Qed.

Lemma exW_2 : h_row (exWs 2) = 0 /\ h_up (exWs 2) = 1 /\ h_down (exWs 2) = 101 /\
  h_stopping (exWs 2) = true /\ h_rem (exWs 2) = 0 /\ 0.9 < h_fdown (exWs 2) /\
  h_fth (exWs 2) = chp_startup_th 0.
Proof.
  destruct exW_1 as (A&B&C&D&E). change (exWs 2) with (chp_step warmP (exWs 1) (exW 1)).
  destruct (stop_fwd warmP (exWs 1) (exW 1)) as (S1&_&_&S2&S3).
  { rewrite A. lra. } { cbn. lra. } { rewrite B. cbn. lra. }
  destruct (stop_decide warmP (exWs 1) (exW 1)) as (U&Dn&_&Sp); try (cbn; lra);
    try apply exW_sane; try reflexivity;
    try eassumption.
  destruct (step_facs warmP (exWs 1) (exW 1)) as (E1&_&_&E4&E5&_&E7).
  destruct (decide_facs warmP (exW 1) (exWs 1)) as (F1&_&_&_&_&F6).
  destruct (process_down warmP (exW 1) (decide warmP (exW 1) (exWs 1))) as (_&P2&P3&P4&_).
  { rewrite U, Dn, B. cbn. lra. } { exact Sp. }
  rewrite Dn in P4. change (i_t (exW 1)) with 1 in P4. change (i_dt (exW 1)) with 100 in P4. replace (1 + 100 - (1 + 100)) with 0 in P4 by lra.
  pose proof down_0. destruct (P4 ltac:(lra)) as (X1&X2).
  rewrite S1, S2, S3, E1, E4, E5, E7, X1, X2, P2, P3, F1, F6, B, C, D. cbn. repeat split; lra.
Qed.

Lemma exW_3 : h_row (exWs 3) = 0 /\ h_up (exWs 3) = 1 /\ h_down (exWs 3) = 101 /\
  h_stopping (exWs 3) = true /\ h_rem (exWs 3) = 0 /\ 0.097 < h_fdown (exWs 3) < 0.1 /\
  h_fth (exWs 3) = chp_startup_th 0.
Proof.
  destruct exW_2 as (A&B&C&D&E&_&G). change (exWs 3) with (chp_step warmP (exWs 2) (exW 2)).
  assert (Z : h_row (chp_step warmP (exWs 2) (exW 2)) = 0).
  { destruct (step_keeps warmP (exWs 2) (exW 2)) as (_&_&_&_&_&_&K7). rewrite K7.
    unfold decide, chp_switch. cbn [exW i_ctl].
    assert (Lo : rlt 0 (p_low warmP) = true) by (apply rlt_true; cbn; lra). rewrite Lo.
    destruct (Req_EM_T (h_row (exWs 2)) 0); [|contradiction]. cbn. ring. }
  destruct (off_decide warmP (exWs 2) (exW 2)) as (U&Dn&_&Sp); try (cbn; lra);
    try apply exW_sane; try reflexivity;
    try eassumption.
  destruct (step_facs warmP (exWs 2) (exW 2)) as (E1&_&_&E4&E5&_&E7).
  destruct (step_keeps warmP (exWs 2) (exW 2)) as (_&_&_&K4&K5&_).
  destruct (decide_facs warmP (exW 2) (exWs 2)) as (F1&_&_&_&_&F6).
  destruct (process_down warmP (exW 2) (decide warmP (exW 2) (exWs 2))) as (_&P2&P3&P4&_).
  { rewrite U, Dn, B, C. lra. } { rewrite Sp. exact D. }
  rewrite Dn, C in P4. change (i_t (exW 2)) with 101 in P4. change (i_dt (exW 2)) with 500 in P4.
  assert (Q : 0.097 < chp_shutdown_th (101 + 500 - 101) < 0.1) by (unfold chp_shutdown_th; lra).
  destruct (P4 ltac:(lra)) as (X1&X2).
  rewrite Z, E1, E4, E5, E7, K4, K5, U, Dn, P2, P3, X1, X2, F1, F6, B, C, E, G.
  repeat split; lra.
Qed.

Lemma exW_run4 : running warmP (chp_init warmP false 0) exW 4 /\ h_up (exWs 4) = 602.
Proof.
  destruct exW_3 as (A&B&C&_). unfold running.
  change (chp_at warmP (chp_init warmP false 0) exW 4) with (chp_step warmP (exWs 3) (exW 3)).
  change (exWs 4) with (chp_step warmP (exWs 3) (exW 3)).
  destruct (start_fwd warmP (exWs 3) (exW 3)) as (S1&_&_&S2&_).
  { exact A. } { cbn. lra. } { rewrite C. cbn. lra. } { apply exW_cool. }
  rewrite S1, S2. cbn. lra.
Qed.

Lemma exW_4 : exists j, h_rem (exWs 4) = INR j /\ h_starting (exWs 4) = true /\
  0.087 <= chp_startup_th (INR j) <= 0.11 /\ h_fth (exWs 4) = chp_startup_th (INR j).
Proof.
  destruct exW_3 as (A&B&C&D&E&F&_). destruct exW_run4 as [R4 _].
  assert (N3 : ~ running warmP (chp_init warmP false 0) exW 3) by (intros H; apply H; exact A).
  pose proof (C181_continues warmP exW false 0 3 warmP_ok warmP_table exW_hist ltac:(lra)) as K.
  destruct (C181_shortened warmP exW false 0 3 warmP_ok (proj1 warmP_table) exW_dt N3 R4
    ltac:(change (0.01 < h_fdown (exWs 3)); lra)) as (j&_&_&_&_&_&C1&C2).
  fold exWs in *. change (chp_at warmP (chp_init warmP false 0) exW) with exWs in *.
  specialize (K ltac:(intros k c; do 6 (destruct k as [|k]; [cbn; intros H; injection H as <-; lra|]);
    cbn; intros H; injection H as <-; lra) N3 R4 ltac:(lra)).
  unfold Rabs in K. exists j.
  destruct (Rle_dec (chp_startup_th (INR j)) 0.999) as [T|T].
  - destruct (C1 T) as (X1&X2&X3&_). rewrite X3 in *. split; [exact X2|]. split; [exact X1|].
    split; [|reflexivity]. destruct (Rcase_abs _); split; lra.
  - destruct (C2 ltac:(lra)) as (_&_&X3&_). rewrite X3 in K. destruct (Rcase_abs _); lra.
Qed.

Lemma exW_6 : h_row (exWs 5) = 0 /\ h_row (exWs 6) = 0 /\ h_down (exWs 6) = 702 /\
  h_fdown (exWs 6) = 0 /\ h_rem (exWs 6) = h_rem (exWs 4).
Proof.
  destruct exW_4 as (j&J1&J2&J3&J4). destruct exW_run4 as [R4 U4].
  change (h_row (exWs 4) <> 0) in R4.
  assert (H5 : h_row (exWs 5) = 0 /\ h_up (exWs 5) = 602 /\ h_down (exWs 5) = 702 /\
    h_stopping (exWs 5) = true /\ h_rem (exWs 5) = h_rem (exWs 4)).
  { change (exWs 5) with (chp_step warmP (exWs 4) (exW 4)).
    destruct (stop_fwd warmP (exWs 4) (exW 4)) as (S1&_&_&S2&S3).
    { exact R4. } { cbn. lra. } { rewrite U4. cbn. lra. }
    destruct (stop_decide warmP (exWs 4) (exW 4)) as (U&Dn&_&Sp); try (cbn; lra);
    try apply exW_sane; try reflexivity;
    try eassumption.
    destruct (step_facs warmP (exWs 4) (exW 4)) as (_&_&_&_&E5&_&E7).
    destruct (decide_facs warmP (exW 4) (exWs 4)) as (_&_&_&_&_&F6).
    destruct (process_down warmP (exW 4) (decide warmP (exW 4) (exWs 4))) as (_&P2&_&P4&_).
    { rewrite U, Dn, U4. cbn. lra. } { exact Sp. }
    rewrite Dn in P4. change (i_t (exW 4)) with 602 in P4. change (i_dt (exW 4)) with 100 in P4.
    replace (602 + 100 - (602 + 100)) with 0 in P4 by lra.
    pose proof down_0. destruct (P4 ltac:(lra)) as (_&X2).
    rewrite S1, S2, S3, U4, E5, X2, E7, P2, F6. cbn. repeat split; lra. }
  destruct H5 as (A&B&C&D&E).
  change (exWs 6) with (chp_step warmP (exWs 5) (exW 5)).
  assert (Z : h_row (chp_step warmP (exWs 5) (exW 5)) = 0).
  { destruct (step_keeps warmP (exWs 5) (exW 5)) as (_&_&_&_&_&_&K7). rewrite K7.
    unfold decide, chp_switch. cbn [exW i_ctl].
    assert (Lo : rlt 0 (p_low warmP) = true) by (apply rlt_true; cbn; lra). rewrite Lo.
    destruct (Req_EM_T (h_row (exWs 5)) 0); [|contradiction]. cbn. ring. }
  destruct (off_decide warmP (exWs 5) (exW 5)) as (U&Dn&_&Sp); try (cbn; lra);
    try apply exW_sane; try reflexivity;
    try eassumption.
  destruct (step_facs warmP (exWs 5) (exW 5)) as (_&_&_&E4&_&_&E7).
  destruct (step_keeps warmP (exWs 5) (exW 5)) as (_&_&_&_&K5&_).
  destruct (decide_facs warmP (exW 5) (exWs 5)) as (_&_&_&_&_&F6).
  destruct (process_down warmP (exW 5) (decide warmP (exW 5) (exWs 5))) as (_&P2&_&_&P4).
  { rewrite U, Dn, B, C. lra. } { rewrite Sp. exact D. }
  rewrite Dn, C in P4. change (i_t (exW 5)) with 702 in P4. change (i_dt (exW 5)) with 10000 in P4.
  assert (Q : chp_shutdown_th (702 + 10000 - 702) < 0.01) by (unfold chp_shutdown_th; lra).
  destruct (P4 Q) as (X1&_).
  rewrite Z, E4, E7, K5, Dn, P2, X1, F6. auto.
Qed.

Example C181_shortened_ex :
  ~ running warmP (chp_init warmP false 0) exW 3 /\ running warmP (chp_init warmP false 0) exW 4 /\
  0.097 < h_fdown (exWs 3) < 0.1 /\ 0.087 <= h_fth (exWs 4) <= 0.11.
Proof.
  destruct exW_3 as (A&_&_&_&_&F&_). destruct exW_run4 as [R4 _].
  destruct exW_4 as (j&_&_&J3&J4). rewrite J4.
  split; [intros H; apply H; exact A|]. split; [exact R4|]. lra.
Qed.

(** The skipped part of the start-up is forgotten only when a start-up is completed: a plant
    whose restart was interrupted and that has been off for 10000 s, without any heat left,
    starts with about ten percent of its thermal power instead of half a permille. *)
Theorem C181_cold_refuted : exists P ins k,
  chp_par_ok P /\ full_table P /\ unrejected ins /\ (forall k, cool (ins k)) /\
  let st := chp_at P (chp_init P false 0) ins in
  let run := running P (chp_init P false 0) ins in
  ~ run k /\ run (S k) /\ h_fdown (st k) = 0 /\ h_down (st k) + 10000 <= i_t (ins k) /\
  chp_startup_th 0 < 0.01 /\ 0.08 < h_fth (st (S k)).
Proof.
  exists warmP, exW, 6%nat. split; [exact warmP_ok|]. split; [exact warmP_table|].
  split; [exact exW_hist|]. split; [exact exW_cool|]. cbv zeta.
  change (chp_at warmP (chp_init warmP false 0) exW) with exWs.
  destruct exW_6 as (_&A&B&C&D). destruct exW_4 as (j&J1&_&J3&_). rewrite J1 in D.
  unfold running. change (chp_at warmP (chp_init warmP false 0) exW) with exWs.
  change (exWs 7) with (chp_step warmP (exWs 6) (exW 6)).
  destruct (start_fwd warmP (exWs 6) (exW 6)) as (S1&_&_&S2&_).
  { exact A. } { cbn. lra. } { rewrite B. cbn. lra. } { apply exW_cool. }
  assert (Nz : h_row (chp_step warmP (exWs 6) (exW 6)) <> 0) by (rewrite S1; cbn; lra).
  destruct (start_decide warmP (exWs 6) (exW 6)) as (U&_&Dn&Sg&_); try (cbn; lra);
    try apply exW_sane; try reflexivity;
    try eassumption.
  destruct (step_facs warmP (exWs 6) (exW 6)) as (E1&_).
  destruct (decide_facs warmP (exW 6) (exWs 6)) as (_&_&_&F4&_&F6).
  destruct (process_up warmP (exW 6) _ Dn) as (_&_&_&_&P5).
  rewrite F4, F6, C, D, U in P5.
  assert (C0 : rlt off_perc 0 = false) by (apply rlt_false; unfold off_perc; lra).
  rewrite C0 in P5. replace (_ - _ + INR j) with (INR j) in P5 by ring.
  destruct (P5 Sg ltac:(lra)) as (_&_&X3&_). rewrite E1, X3, A, B, C.
  split; [lra|]. split; [exact Nz|]. split; [reflexivity|]. split; [cbn; lra|].
  pose proof (th_mono 0 1 ltac:(lra)). pose proof th_1. lra.
Qed.
Print Assumptions C181_cold_refuted.

(** The remaining heat is counted as if every stop happened at full power: a plant that never
    gave more than half a permille of its thermal power restarts with ten percent, 500 s after it
    was stopped. *)
Theorem C181_unwarmed_refuted : exists P ins k,
  chp_par_ok P /\ full_table P /\ unrejected ins /\ (forall k, cool (ins k)) /\
  let st := chp_at P (chp_init P false 0) ins in
  let run := running P (chp_init P false 0) ins in
  ~ run k /\ run (S k) /\ (forall i, (i <= k)%nat -> h_fth (st i) <= chp_startup_th 0) /\
  h_down (st k) + 500 <= i_t (ins k) /\ 100 * chp_startup_th 0 < h_fth (st (S k)).
Proof.
  exists warmP, exW, 3%nat. split; [exact warmP_ok|]. split; [exact warmP_table|].
  split; [exact exW_hist|]. split; [exact exW_cool|]. cbv zeta.
  unfold running. change (chp_at warmP (chp_init warmP false 0) exW) with exWs.
  destruct exW_1 as (_&_&_&A1&_). destruct exW_2 as (_&_&_&_&_&_&A2).
  destruct exW_3 as (Z3&_&D3&_&_&_&A3). destruct exW_run4 as [R4 _].
  destruct exW_4 as (j&_&_&J3&J4). rewrite J4, D3.
  split; [intros H; apply H; exact Z3|]. split; [exact R4|]. split.
  { intros i Hi. pose proof (th_range 0). destruct i as [|[|[|[|i]]]]; [change (h_fth (exWs 0)) with 0; lra|lra|lra|lra|lia]. }
  split; [cbn; lra|].
  assert (T0 : chp_startup_th 0 < 0.00045).
  { unfold chp_startup_th. rewrite Rmult_0_r, exp_0. lra. }
  lra.
Qed.
Print Assumptions C181_unwarmed_refuted.

(** A plant that meets the hypotheses of [C181_cold_partial] and [C181_course]: complete start-up,
    stop, 10000 s without operation, start. *)
Definition exC (k : nat) : chp_in :=
  match k with
  | O => mkChpIn 0 1 (Some 1) [60]
  | 1%nat => mkChpIn 1 3000 (Some 1) [60]
  | 2%nat => mkChpIn 3001 100 (Some 0) [60]
  | 3%nat => mkChpIn 3101 10000 (Some 0) [60]
  | S (S (S (S n))) => mkChpIn (13101 + INR n) 1 (Some 1) [60]
  end.
Definition exCs (k : nat) : chp := chp_at warmP (chp_init warmP false 0) exC k.
Local Arguments exCs : simpl never.

Lemma exC_hist : unrejected exC.
Proof.
  split; [cbn; lra|]. intros k. unfold stamp.
  do 4 (destruct k as [|k]; [cbn; split; lra|]). cbn [exC i_t i_dt]. rewrite S_INR. split; lra.
Qed.
Lemma exC_cool k : cool (exC k).
Proof. apply cool60. do 4 (destruct k as [|k]; [reflexivity|]). reflexivity. Qed.
Lemma exC_sane k : sane warmP (exCs k).
Proof. apply at_sane; try (cbn; lra); [apply init_sane|apply exC_hist]. Qed.

Example C181_cold_partial_ex :
  let run := running warmP (chp_init warmP false 0) exC in
  ~ run O /\ run 1%nat /\ run 2%nat /\ h_starting (exCs 2) = false /\ ~ run 3%nat /\ ~ run 4%nat /\
  run 5%nat /\ h_fdown (exCs 4) <= 0.01.
Proof.
  cbv zeta. unfold running. change (chp_at warmP (chp_init warmP false 0) exC) with exCs.
  assert (H1 : h_row (exCs 1) = 1 /\ h_up (exCs 1) = 1 /\ h_down (exCs 1) = - 61 /\
    h_starting (exCs 1) = true /\ h_fdown (exCs 1) <= 0.01 /\ h_rem (exCs 1) = 0).
  { change (exCs 1) with (exWs 1). destruct exW_1 as (A&B&C&_&E).
    assert (N1 : running warmP (chp_init warmP false 0) exW 1).
    { unfold running. change (h_row (exWs 1) <> 0). rewrite A. lra. }
    destruct (started_inv warmP exW false 0 0 warmP_ok exW_hist) with (n := O) as (_&_&F&_).
    { intros H. apply H. reflexivity. } { exact N1. }
    { intros i Hi. replace (1 + i)%nat with 1%nat by lia. exact N1. }
    change (h_fdown (exWs 1) <= 0.01) in F.
    destruct (start_fwd warmP (exWs 0) (exW 0)) as (_&_&_&_&D).
    { reflexivity. } { cbn. lra. }
    { change (h_down (exWs 0)) with (- 60 - 1). cbn. lra. } { apply exW_cool. }
    change (h_down (exWs 1) = - 60 - 1) in D. rewrite D. repeat split; auto; lra. }
  destruct H1 as (R1&U1&D1&G1&F1&M1).
  assert (H2 : h_row (exCs 2) = 1 /\ h_up (exCs 2) = 1 /\ h_starting (exCs 2) = false).
  { change (exCs 2) with (chp_step warmP (exCs 1) (exC 1)).
    destruct (stay_fwd warmP (exCs 1) (exC 1)) as (S1&_&_&S2&_).
    { rewrite R1. lra. } { cbn. lra. }
    { rewrite R1. cbn. replace (1 - 1) with 0 by ring. rewrite Rabs_R0. lra. }
    { apply exC_cool. }
    destruct (stay_decide warmP (exCs 1) (exC 1)) as (U&Dn&Sg&_); try (cbn; lra).
    { apply exC_sane. } { rewrite S1. cbn. lra. }
    destruct (step_facs warmP (exCs 1) (exC 1)) as (_&_&_&_&_&E6&_).
    destruct (decide_facs warmP (exC 1) (exCs 1)) as (_&_&_&F4&_&F6).
    destruct (process_up warmP (exC 1) (decide warmP (exC 1) (exCs 1))) as (_&_&_&P4&_).
    { rewrite U, Dn, U1, D1. lra. }
    assert (C0 : rlt off_perc (h_fdown (decide warmP (exC 1) (exCs 1))) = false)
      by (apply rlt_false; rewrite F4; exact F1).
    rewrite C0, U, U1, F6, M1, Sg in P4.
    change (i_t (exC 1)) with 1 in P4. change (i_dt (exC 1)) with 3000 in P4.
    destruct (P4 G1) as (X&_); [apply th_done; lra|].
    rewrite S1, S2, U1, E6, X. cbn. auto. }
  destruct H2 as (R2&U2&G2).
  assert (H3 : h_row (exCs 3) = 0 /\ h_up (exCs 3) = 1 /\ h_down (exCs 3) = 3101 /\
    h_stopping (exCs 3) = true).
  { change (exCs 3) with (chp_step warmP (exCs 2) (exC 2)).
    destruct (stop_fwd warmP (exCs 2) (exC 2)) as (S1&_&_&S2&S3).
    { rewrite R2. lra. } { cbn. lra. } { rewrite U2. cbn. lra. }
    destruct (stop_decide warmP (exCs 2) (exC 2)) as (U&Dn&_&Sp); try (cbn; lra).
    { apply exC_sane. } { exact S1. }
    destruct (step_facs warmP (exCs 2) (exC 2)) as (_&_&_&_&E5&_).
    destruct (process_down warmP (exC 2) (decide warmP (exC 2) (exCs 2))) as (_&_&_&P4&_).
    { rewrite U, Dn, U2. cbn. lra. } { exact Sp. }
    rewrite Dn in P4. change (i_t (exC 2)) with 3001 in P4. change (i_dt (exC 2)) with 100 in P4.
    replace (3001 + 100 - (3001 + 100)) with 0 in P4 by lra.
    pose proof down_0. destruct (P4 ltac:(lra)) as (_&X2).
    rewrite S1, S2, S3, U2, E5, X2. cbn. repeat split; lra. }
  destruct H3 as (R3&U3&D3&G3).
  assert (H4 : h_row (exCs 4) = 0 /\ h_down (exCs 4) = 3101 /\ h_fdown (exCs 4) = 0).
  { change (exCs 4) with (chp_step warmP (exCs 3) (exC 3)).
    assert (Z : h_row (chp_step warmP (exCs 3) (exC 3)) = 0).
    { destruct (step_keeps warmP (exCs 3) (exC 3)) as (_&_&_&_&_&_&K7). rewrite K7.
      unfold decide, chp_switch. cbn [exC i_ctl].
      assert (Lo : rlt 0 (p_low warmP) = true) by (apply rlt_true; cbn; lra). rewrite Lo.
      destruct (Req_EM_T (h_row (exCs 3)) 0); [|contradiction]. cbn. ring. }
    destruct (off_decide warmP (exCs 3) (exC 3)) as (U&Dn&_&Sp); try (cbn; lra).
    { apply exC_sane. } { exact Z. }
    destruct (step_facs warmP (exCs 3) (exC 3)) as (_&_&_&E4&_).
    destruct (step_keeps warmP (exCs 3) (exC 3)) as (_&_&_&_&K5&_).
    destruct (process_down warmP (exC 3) (decide warmP (exC 3) (exCs 3))) as (_&_&_&_&P4).
    { rewrite U, Dn, U3, D3. lra. } { rewrite Sp. exact G3. }
    rewrite Dn, D3 in P4. change (i_t (exC 3)) with 3101 in P4.
    change (i_dt (exC 3)) with 10000 in P4.
    destruct (P4 ltac:(unfold chp_shutdown_th; lra)) as (X1&_).
    rewrite Z, K5, Dn, E4, X1. auto. }
  destruct H4 as (R4&D4&F4).
  assert (H5 : h_row (exCs 5) = 1).
  { change (exCs 5) with (chp_step warmP (exCs 4) (exC 4)).
    destruct (start_fwd warmP (exCs 4) (exC 4)) as (S1&_).
    { exact R4. } { cbn. lra. } { rewrite D4. cbn. lra. } { apply exC_cool. }
    rewrite S1. reflexivity. }
  assert (R0 : h_row (exCs 0) = 0) by reflexivity.
  rewrite R0, R1, R2, R3, R4, H5, F4. repeat split; try lra. exact G2.
Qed.
