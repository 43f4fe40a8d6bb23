(** C46 (control output), C47, C48, C76, C77: the model-predictive CHP controller. *)
From Coq Require Import Reals List Bool Arith Lra Lia ZArith.
From Verif Require Import MBC MCtrl MMpcCost MMpc LMpc PMpcPlan.
Import ListNotations.
Open Scope R_scope.

Ltac ms := cbn [m_cv m_opt m_cons m_on m_caps m_prev m_num m_steps] in *.

(** ** What the controller is asked to do *)

(** Too cold (activation) with a margin [h]; far too cold (full power); too hot (deactivation). *)
Definition cold (c : pcfg) (h : R) (i : minp) : Prop :=
  if c_act_le c then i_sens i < c_act c + h else i_sens i > c_act c - h.
Definition very_cold (c : pcfg) (i : minp) : Prop :=
  if c_act_le c then i_sens i < c_act c - c_fp c else i_sens i > c_act c + c_fp c.
Definition hot (c : pcfg) (i : minp) : Prop :=
  if c_deact_ge c then i_pv i > i_sp i else i_pv i < i_sp i.

(** The margin in force: the hysteresis after a step with emergency control. *)
Definition margin (c : pcfg) (s : mst) : R :=
  if (c_use_hyst c && m_cons s)%bool then c_hyst c else 0.

Lemma emergency_cases c s i s' em th : emergency c s i = (s', em, th) ->
  (hot c i /\ em = true /\ th = false /\ m_on s' = false /\ m_cv s' = c_off c /\
     m_opt s' = c_off c /\ m_cons s' = true) \/
  (~ hot c i /\ cold c (margin c s) i /\ em = true /\ th = true /\ m_on s' = true /\
     m_cv s' = c_smax c /\ m_cons s' = true /\
     (very_cold c i /\ m_opt s' = c_smax c * 2 \/ ~ very_cold c i /\ m_opt s' = c_smax c)) \/
  (~ hot c i /\ ~ cold c (margin c s) i /\ em = false /\ th = true /\ m_on s' = m_on s /\
     m_cv s' = m_cv s /\ m_opt s' = m_opt s /\ m_cons s' = false /\ m_caps s' = m_caps s).
Proof.
  unfold emergency, hot, cold, very_cold, margin, full_power_val. intro E.
  set (h := if (c_use_hyst c && m_cons s)%bool then c_hyst c else 0) in *.
  destruct (c_deact_ge c); destruct (c_act_le c);
  repeat match type of E with context [Rlt_dec ?a ?b] => destruct (Rlt_dec a b) end;
  cbn [orb andb negb m_cv m_opt m_cons m_on m_caps m_prev m_num m_steps] in E;
  injection E as <- <- <-; ms;
  first
   [ left; repeat split; (lra || reflexivity)
   | right; left; repeat split; try (lra || reflexivity);
     ((left; split; [lra|reflexivity]) || (right; split; [lra|reflexivity]))
   | right; right; repeat split; (lra || reflexivity) ].
Qed.

Lemma emergency_rest c s i s' em th : emergency c s i = (s', em, th) ->
  m_prev s' = m_prev s /\ m_num s' = m_num s /\ m_steps s' = m_steps s /\ m_cons s' = em.
Proof.
  unfold emergency. intro E.
  repeat match type of E with context [if ?b then _ else _] =>
    match b with context [if _ then _ else _] => fail 1 | _ => idtac end; destruct b end;
  injection E as <- <- <-; ms; repeat split; reflexivity.
Qed.

Lemma emergency_caps c s i s' em th : emergency c s i = (s', em, th) ->
  (hot c i -> ~ cold c (margin c s) i ->
     m_caps s' = adapt (negb (c_deact_ge c)) (m_cons s) (i_t i) (i_heat i) (m_caps s)) /\
  (~ hot c i -> cold c (margin c s) i ->
     m_caps s' = adapt (c_act_le c) (m_cons s) (i_t i) (i_heat i) (m_caps s)).
Proof.
  unfold emergency, hot, cold, margin. intro E.
  set (h := if (c_use_hyst c && m_cons s)%bool then c_hyst c else 0) in *.
  destruct (c_deact_ge c); destruct (c_act_le c);
  repeat match type of E with context [Rlt_dec ?a ?b] => destruct (Rlt_dec a b) end;
  cbn [orb andb negb m_cv m_opt m_cons m_on m_caps m_prev m_num m_steps] in E;
  injection E as <- _ _; ms; split; intros P Q; (reflexivity || (exfalso; lra)).
Qed.

(** State after the (possible) optimisation step. *)
Definition after_opt (c : pcfg) (s : mst) (em : bool) (i : minp) (next : R) : mst :=
  if Rle_dec next (i_t i) then
    if em then finalize c s i else finalize c (longterm c s i) i
  else s.

Lemma run_unfold c s i r : run_mpc c s i = Some r ->
  exists s1 em th next rest, emergency c s i = (s1, em, th) /\ m_steps s = next :: rest /\
    let s2 := after_opt c s1 em i next in
    m_opt r = m_opt s2 /\ m_cons r = em /\ m_on r = m_on s1 /\ m_caps r = m_caps s2 /\
    m_num r = m_num s2 /\ m_steps r = m_steps s2 /\
    m_cv r = (if c_inv c then - clip (c_smin c) (c_smax c)
      (if (th && (if Rlt_dec 0 (m_opt s2) then true else false))%bool
       then if em then (i_x3 i + m_opt s2) / 2 else (i_x3 i * 2 + m_opt s2) / 3
       else if em then m_cv s1 else 0)
      else clip (c_smin c) (c_smax c)
      (if (th && (if Rlt_dec 0 (m_opt s2) then true else false))%bool
       then if em then (i_x3 i + m_opt s2) / 2 else (i_x3 i * 2 + m_opt s2) / 3
       else if em then m_cv s1 else 0)).
Proof.
  unfold run_mpc. intro E. destruct (emergency c s i) as [[s1 em] th] eqn:EM.
  destruct (emergency_rest _ _ _ _ _ _ EM) as (P1 & P2 & P3 & P4).
  destruct (m_steps s1) as [|next rest] eqn:ST; [discriminate|].
  exists s1, em, th, next, rest. split; [reflexivity|]. split; [congruence|].
  fold (after_opt c s1 em i next) in E.
  assert (CV : m_cv (after_opt c s1 em i next) = m_cv s1).
  { unfold after_opt, finalize, longterm. destruct (Rle_dec _ _); [destruct em|]; reflexivity. }
  assert (CN : m_cons (after_opt c s1 em i next) = em).
  { unfold after_opt, finalize, longterm. destruct (Rle_dec _ _); [destruct em|]; ms; congruence. }
  assert (ON : m_on (after_opt c s1 em i next) = m_on s1).
  { unfold after_opt, finalize, longterm. destruct (Rle_dec _ _); [destruct em|]; reflexivity. }
  rewrite CV in E. injection E as <-. ms. rewrite CN, ON.
  repeat split; destruct (c_inv c); reflexivity.
Qed.

Lemma after_opt_em c s i next : m_opt (after_opt c s true i next) = m_opt s.
Proof. unfold after_opt. destruct (Rle_dec _ _); reflexivity. Qed.

(** ** C47: emergency control *)

(** Too hot: switched off, whatever else holds and whatever was planned. *)
Theorem C47_off : forall c s i r, run_mpc c s i = Some r -> hot c i -> c_inv c = false ->
  m_cv r = clip (c_smin c) (c_smax c) (c_off c) /\ m_opt r = c_off c /\
  m_cons r = true /\ m_on r = false.
Proof.
  intros c s i r E H I. destruct (run_unfold c s i r E) as (s1 & em & th & next & rest & EM & ST & U).
  cbv zeta in U. destruct U as (U1 & U2 & U3 & _ & _ & _ & U7).
  destruct (emergency_cases _ _ _ _ _ _ EM) as [C|[C|C]]; [|tauto|tauto].
  destruct C as (_ & -> & -> & C1 & C2 & C3 & _).
  rewrite I in U7. cbn [andb] in U7. rewrite after_opt_em in U1. repeat split; congruence.
Qed.

(** Too cold and not too hot: on, at least at the mean of full power and the short-term result;
    below the second threshold at full power. *)
Theorem C47_on : forall c s i r, run_mpc c s i = Some r -> cold c (margin c s) i -> ~ hot c i ->
  c_inv c = false -> 0 < c_smax c -> c_smin c <= 0 <= i_x3 i ->
  m_cons r = true /\ m_on r = true /\
  Rmin (c_smax c) ((i_x3 i + c_smax c) / 2) <= m_cv r <= c_smax c /\
  (very_cold c i -> m_cv r = c_smax c).
Proof.
  intros c s i r E K H I M X.
  destruct (run_unfold c s i r E) as (s1 & em & th & next & rest & EM & ST & U).
  cbv zeta in U. destruct U as (U1 & U2 & U3 & _ & _ & _ & U7).
  destruct (emergency_cases _ _ _ _ _ _ EM) as [C|[C|C]]; [tauto| |tauto].
  destruct C as (_ & _ & -> & -> & C1 & C2 & _ & C4).
  rewrite I in U7. rewrite after_opt_em in U7. cbn [andb] in U7.
  assert (P : 0 < m_opt s1) by (destruct C4 as [[_ ->]|[_ ->]]; lra).
  destruct (Rlt_dec 0 (m_opt s1)); [|lra].
  split; [exact U2|]. split; [congruence|].
  unfold clip in U7. unfold Rmin.
  destruct C4 as [[V C4]|[V C4]]; rewrite C4 in U7; split;
    try (intro; tauto); try intros _; rewrite U7;
    destruct (Rlt_dec _ (c_smin c)); try lra; destruct (Rlt_dec (c_smax c) _); try lra;
    destruct (Rle_dec _ _); lra.
Qed.

(** Neither: no emergency, and the memory of it is cleared. *)
Theorem C47_none : forall c s i r, run_mpc c s i = Some r -> ~ cold c (margin c s) i -> ~ hot c i ->
  m_cons r = false /\ m_on r = m_on s.
Proof.
  intros c s i r E K H.
  destruct (run_unfold c s i r E) as (s1 & em & th & next & rest & EM & ST & U).
  cbv zeta in U. destruct U as (U1 & U2 & U3 & _).
  destruct (emergency_cases _ _ _ _ _ _ EM) as [C|[C|C]]; [tauto|tauto|].
  destruct C as (_ & _ & -> & _ & C1 & _). split; congruence.
Qed.

(** The intended hysteresis: on below the limit, stays on until the margin is left, off when too
    hot. *)
Inductive latch := Idle | On | Off.
Definition latch_step (c : pcfg) (l : latch) (i : minp) (l' : latch) : Prop :=
  (hot c i /\ l' = Off) \/
  (~ hot c i /\ cold c (if c_use_hyst c then match l with On => c_hyst c | _ => 0 end else 0) i
   /\ l' = On) \/
  (~ hot c i /\ ~ cold c (if c_use_hyst c then match l with On => c_hyst c | _ => 0 end else 0) i
   /\ l' = Idle).
Inductive latch_run (c : pcfg) : latch -> list minp -> latch -> Prop :=
| lr_nil l : latch_run c l [] l
| lr_cons l i l1 is l2 : latch_step c l i l1 -> latch_run c l1 is l2 ->
    latch_run c l (i :: is) l2.

Definition latch_of (s : mst) : latch := if m_cons s then if m_on s then On else Off else Idle.

(** The controller follows the intended hysteresis over every history in which it is never too
    hot, or which uses no hysteresis. *)
Theorem C47_history_partial : forall c l s r l', run_all c s l = Some r ->
  latch_run c (latch_of s) l l' -> latch_of s <> Off \/ c_use_hyst c = false ->
  Forall (fun i => ~ hot c i) l \/ c_use_hyst c = false ->
  latch_of r = l'.
Proof.
  intros c l. induction l as [|i l IH]; intros s r l' E L N F.
  - cbn in E. injection E as <-. inversion L; subst. reflexivity.
  - cbn [run_all] in E. destruct (run_mpc c s i) as [s1|] eqn:RM; [|discriminate].
    inversion L as [|l0 i0 l1 is l2 ST LR]; subst.
    assert (M : (if c_use_hyst c then match latch_of s with On => c_hyst c | _ => 0 end else 0) =
                margin c s).
    { unfold latch_of, margin in *. destruct (c_use_hyst c); cbn [andb]; [|reflexivity].
      destruct (m_cons s); [|reflexivity]. destruct (m_on s); [reflexivity|].
      destruct N as [N|N]; [congruence|discriminate]. }
    unfold latch_step in ST. rewrite M in ST.
    assert (E1 : latch_of s1 = l1).
    { destruct (run_unfold c s i s1 RM) as (s0 & em & th & next & rest & EM & _ & U).
      cbv zeta in U. destruct U as (_ & U2 & U3 & _).
      unfold latch_of. rewrite U2, U3.
      destruct (emergency_cases _ _ _ _ _ _ EM) as [C|[C|C]].
      - destruct C as (C0 & -> & _ & -> & _). destruct ST as [[_ ->]|[[A _]|[A _]]]; tauto.
      - destruct C as (C0 & C1 & -> & _ & -> & _).
        destruct ST as [[A _]|[[_ [_ ->]]|[_ [A _]]]]; tauto.
      - destruct C as (C0 & C1 & -> & _). destruct ST as [[A _]|[[_ [A _]]|[_ [_ ->]]]]; tauto. }
    subst l1. apply (IH s1 r l' E LR).
    + destruct F as [F|F]; [|now right]. left. inversion F as [|u v F1 F2]; subst.
      destruct ST as [[A _]|[[_ [_ ->]]|[_ [_ ->]]]]; [tauto|discriminate|discriminate].
    + destruct F as [F|F]; [|now right]. left. now inversion F.
Qed.

(** The same from the start: a new controller is idle, so its first call uses no hysteresis. *)
Theorem C47_start_partial : forall c oe tf l r l', run_all c (init c oe tf) l = Some r ->
  latch_run c Idle l l' -> Forall (fun i => ~ hot c i) l \/ c_use_hyst c = false ->
  latch_of r = l'.
Proof.
  intros c oe tf l r l' E L F. apply (C47_history_partial c l (init c oe tf) r l' E); auto.
  left. discriminate.
Qed.
Print Assumptions C47_start_partial.

(** After switching off because it was too hot, the hysteresis of the activation applies as
    well: the CHP is forced on although it is not too cold. *)
Theorem C47_leak_refuted : forall c s i r, run_mpc c s i = Some r ->
  m_cons s = true -> m_on s = false -> c_use_hyst c = true ->
  ~ cold c 0 i -> cold c (c_hyst c) i -> ~ hot c i ->
  latch_step c (latch_of s) i Idle /\ latch_of r = On.
Proof.
  intros c s i r E CN ON UH NC CC NH.
  split.
  - right. right. unfold latch_of. rewrite CN, ON, UH. auto.
  - destruct (run_unfold c s i r E) as (s0 & em & th & next & rest & EM & _ & U).
    cbv zeta in U. destruct U as (_ & U2 & U3 & _).
    assert (MG : margin c s = c_hyst c) by (unfold margin; rewrite CN, UH; reflexivity).
    destruct (emergency_cases _ _ _ _ _ _ EM) as [C|[C|C]]; [tauto| |rewrite MG in C; tauto].
    destruct C as (_ & _ & -> & _ & C1 & _). unfold latch_of. rewrite U2, U3, C1. reflexivity.
Qed.

(** ** C46: control output *)

(** Over every run the output is 0 or within the range, if the range ends at full power, the
    saturation is [0, 1] and the short-term result is in the range. *)
Definition out_ok (lo : R) (v : R) : Prop := v = 0 \/ lo <= v <= 1.

Lemma opt_invariant c s i r : run_mpc c s i = Some r -> 0 <= c_lo c <= 1 ->
  c_smax c = 1 -> c_off c = 0 ->
  out_ok (c_lo c) (m_opt s) \/ m_opt s = 2 -> out_ok (c_lo c) (m_opt r) \/ m_opt r = 2.
Proof.
  intros E L SM O INV.
  destruct (run_unfold c s i r E) as (s1 & em & th & next & rest & EM & ST & U).
  cbv zeta in U. destruct U as (U1 & _).
  rewrite U1. destruct (emergency_cases _ _ _ _ _ _ EM) as [C|[C|C]].
  - destruct C as (_ & -> & _ & _ & _ & C & _). rewrite after_opt_em, C, O. left. now left.
  - destruct C as (_ & _ & -> & _ & _ & _ & _ & [[_ C]|[_ C]]); rewrite after_opt_em, C, SM.
    + right. lra.
    + left. right. lra.
  - destruct C as (_ & _ & -> & _ & _ & _ & C & _ & _). unfold after_opt.
    destruct (Rle_dec next (i_t i)); [|rewrite C; exact INV].
    cbn [finalize longterm m_opt]. left. destruct (i_plan i) as [x|]; [|now left].
    exact (proj1 (C46_longterm (c_inc c) (c_lo c) (m_prev s1) (1 / 100) x L)).
Qed.

Theorem C46_output_partial : forall c l s r, run_all c s l = Some r ->
  0 <= c_lo c <= 1 -> c_hi c = 1 -> c_smin c = 0 -> c_smax c = 1 -> c_off c = 0 ->
  c_inv c = false -> Forall (fun i => c_lo c <= i_x3 i <= c_hi c) l ->
  out_ok (c_lo c) (m_cv s) -> out_ok (c_lo c) (m_opt s) ->
  out_ok (c_lo c) (m_cv r).
Proof.
  intros c l s r E L H SN SM O I F CV OPT.
  assert (G : out_ok (c_lo c) (m_opt s) \/ m_opt s = 2) by now left. clear OPT.
  revert s E CV G. induction l as [|i l IH]; intros s E CV G.
  - cbn in E. injection E as <-. exact CV.
  - cbn [run_all] in E. destruct (run_mpc c s i) as [s1|] eqn:RM; [|discriminate].
    inversion F as [|u v F1 F2]; subst.
    pose proof (opt_invariant c s i s1 RM L SM O G) as G1.
    apply (IH F2 s1 E); [|exact G1].
    destruct (run_unfold c s i s1 RM) as (s0 & em & th & next & rest & EM & _ & U).
    cbv zeta in U. destruct U as (U1 & _ & _ & _ & _ & _ & U7). rewrite <- U1 in U7.
    rewrite I, SN, SM in U7. rewrite U7. clear U7. unfold clip.
    assert (D0 : out_ok (c_lo c) (if Rlt_dec 0 0 then 0 else if Rlt_dec 1 0 then 1 else 0)).
    { left. destruct (Rlt_dec 0 0); [lra|]. destruct (Rlt_dec 1 0); lra. }
    destruct (emergency_cases _ _ _ _ _ _ EM) as [C|[C|C]].
    + destruct C as (_ & -> & -> & _ & -> & _). cbn [andb]. rewrite O. exact D0.
    + destruct C as (_ & _ & -> & -> & _ & C2 & _ & C4). cbn [andb]. rewrite after_opt_em in U1.
      rewrite U1. unfold out_ok. clear D0.
      destruct C4 as [[_ C4]|[_ C4]]; rewrite C4, SM;
      (destruct (Rlt_dec 0 _); [|lra]); (destruct (Rlt_dec _ 0); [lra|]);
      (destruct (Rlt_dec 1 _); right; lra).
    + destruct C as (_ & _ & -> & -> & _). cbn [andb]. unfold out_ok in *.
      destruct (Rlt_dec 0 (m_opt s1)); [|exact D0]. clear D0.
      destruct (Rlt_dec _ 0); [lra|]. destruct (Rlt_dec 1 _); right; lra.
Qed.

(** With a smaller upper limit of the range the output can exceed it, even if both optimisers
    stay in the documented bounds ([0, 1] resp. the range). *)
Definition cfg0 (hi rest : R) : pcfg :=
  mkPcfg true 60 true true 1 2 0 1 0 false (10, 100) rest (1 / 2) hi true.
Definition quiet (t plan x3 : R) : minp := mkMinp t 70 60 80 50 (Some plan) x3.

Lemma clip_id lo hi x : lo <= x <= hi -> clip lo hi x = x.
Proof. intro H. unfold clip. destruct (Rlt_dec x lo); [lra|]. destruct (Rlt_dec hi x); lra. Qed.

Lemma run_total c s i : m_steps s <> [] -> exists r, run_mpc c s i = Some r.
Proof.
  intro N. unfold run_mpc. destruct (emergency c s i) as [[s1 em] th] eqn:EM.
  destruct (emergency_rest _ _ _ _ _ _ EM) as (_ & _ & P3 & _).
  destruct (m_steps s1); [congruence|]. eexists. reflexivity.
Qed.

Theorem C46_output_refuted : exists c s i r,
  c_hi c = 8 / 10 /\ run_mpc c s i = Some r /\ i_plan i = Some (9 / 10) /\ i_x3 i = c_hi c /\
  c_hi c < m_cv r <= 1.
Proof.
  set (c := cfg0 (8/10) 1000). set (i := quiet 0 (9/10) (8/10)).
  set (s := mkMst 0 0 false false (fresh_caps c) 0 0 [0; 900]).
  destruct (run_total c s i) as [r E]; [discriminate|].
  exists c, s, i, r. split; [reflexivity|]. split; [exact E|]. split; [reflexivity|].
  split; [reflexivity|].
  destruct (run_unfold _ _ _ _ E) as (s1 & em & th & next & rest & EM & ST & U).
  cbv zeta in U. destruct U as (_ & _ & _ & _ & _ & _ & U).
  injection ST as <- _.
  destruct (emergency_rest _ _ _ _ _ _ EM) as (P1 & _).
  destruct (emergency_cases _ _ _ _ _ _ EM) as [C|[C|C]].
  - destruct C as (C & _). unfold hot in C. cbn in C. lra.
  - destruct C as (_ & C & _). unfold cold, margin in C. cbn in C. lra.
  - destruct C as (_ & _ & -> & -> & _).
    assert (O : m_opt (after_opt c s1 false i 0) = 9 / 10).
    { unfold after_opt. cbn [i i_t quiet]. destruct (Rle_dec 0 0); [|lra].
      cbn [finalize longterm m_opt i_plan quiet]. rewrite P1.
      destruct (C46_longterm true (1/2) 0 (1/100) (9/10)) as (_ & K & _); [lra|]. apply K. lra. }
    rewrite O in U. rewrite U.
    cbn [c cfg0 c_inv c_smin c_smax c_hi i i_x3 quiet andb]. destruct (Rlt_dec 0 (9/10)); [|lra].
    rewrite clip_id; lra.
Qed.

(** ** C48: adapted limits recover *)

Lemma restore_lower c t k : 0 < c_rest c -> k_adp k = true -> snd (k_time k) <= fst (k_time k) ->
  let f := (t - fst (k_time k)) / c_rest c in
  k_bak (restore c t k) = k_bak k /\ k_time (restore c t k) = k_time k /\
  (1 <= f /\ restore c t k = mkCaps (k_use k) (k_bak k) (k_time k) false \/
   f < 1 /\ k_adp (restore c t k) = true /\
   fst (k_use (restore c t k)) = fst (c_caps c) + (fst (k_bak k) - fst (c_caps c)) * (1 - f)).
Proof.
  intros T A L f. unfold restore. rewrite A. fold f.
  set (f1 := (t - snd (k_time k)) / c_rest c).
  assert (F : f <= f1).
  { unfold f, f1, Rdiv. apply Rmult_le_compat_r; [left; now apply Rinv_0_lt_compat|lra]. }
  destruct (Rle_dec 1 f).
  - destruct (Rle_dec 1 f1); [|lra]. split; [reflexivity|split; [reflexivity|left]].
    split; [assumption|reflexivity].
  - split; [reflexivity|split; [reflexivity|right]]. split; [lra|]. split; [reflexivity|].
    cbn [k_use fst]. destruct (Rlt_dec 1 f); [lra|]. ring.
Qed.

Lemma restore_upper c t k : 0 < c_rest c -> k_adp k = true -> fst (k_time k) <= snd (k_time k) ->
  let f := (t - snd (k_time k)) / c_rest c in
  k_bak (restore c t k) = k_bak k /\ k_time (restore c t k) = k_time k /\
  (1 <= f /\ restore c t k = mkCaps (k_use k) (k_bak k) (k_time k) false \/
   f < 1 /\ k_adp (restore c t k) = true /\
   snd (k_use (restore c t k)) = snd (c_caps c) + (snd (k_bak k) - snd (c_caps c)) * (1 - f)).
Proof.
  intros T A L f. unfold restore. rewrite A. fold f.
  set (f0 := (t - fst (k_time k)) / c_rest c).
  assert (F : f <= f0).
  { unfold f, f0, Rdiv. apply Rmult_le_compat_r; [left; now apply Rinv_0_lt_compat|lra]. }
  destruct (Rle_dec 1 f0).
  - destruct (Rle_dec 1 f).
    + split; [reflexivity|split; [reflexivity|left]]. split; [assumption|reflexivity].
    + split; [reflexivity|split; [reflexivity|right]]. split; [lra|]. split; [reflexivity|].
      cbn [k_use snd]. destruct (Rlt_dec 1 f); [lra|]. ring.
  - split; [reflexivity|split; [reflexivity|right]]. split; [lra|]. split; [reflexivity|].
    cbn [k_use snd]. destruct (Rlt_dec 1 f); [lra|]. ring.
Qed.

Lemma restore_off c t k : k_adp k = false -> restore c t k = k.
Proof. intro A. unfold restore. now rewrite A. Qed.

(** Which of the two limits was adapted last (ties count for both), and still differs from the
    configured value. *)
Definition stuck_lower (c : pcfg) (k : caps) : Prop :=
  snd (k_time k) <= fst (k_time k) /\ fst (k_bak k) <> fst (c_caps c) /\
  fst (k_use k) <> fst (c_caps c).
Definition stuck_upper (c : pcfg) (k : caps) : Prop :=
  fst (k_time k) <= snd (k_time k) /\ snd (k_bak k) <> snd (c_caps c) /\
  snd (k_use k) <> snd (c_caps c).

Lemma stuck_lower_step c t k : 0 < c_rest c -> stuck_lower c k -> stuck_lower c (restore c t k).
Proof.
  intros T (S1 & S2 & S3). destruct (k_adp k) eqn:A; [|rewrite restore_off by assumption; now split].
  destruct (restore_lower c t k T A S1) as (B & TM & R). cbv zeta in R.
  unfold stuck_lower. rewrite B, TM. split; [exact S1|split; [exact S2|]].
  destruct R as [[_ R]|(F & _ & R)]; rewrite R; [exact S3|]. cbn. intro Z.
  assert (Z' : (fst (k_bak k) - fst (c_caps c)) * (1 - (t - fst (k_time k)) / c_rest c) = 0) by lra.
  apply Rmult_integral in Z'. destruct Z'; lra.
Qed.

Lemma stuck_upper_step c t k : 0 < c_rest c -> stuck_upper c k -> stuck_upper c (restore c t k).
Proof.
  intros T (S1 & S2 & S3). destruct (k_adp k) eqn:A; [|rewrite restore_off by assumption; now split].
  destruct (restore_upper c t k T A S1) as (B & TM & R). cbv zeta in R.
  unfold stuck_upper. rewrite B, TM. split; [exact S1|split; [exact S2|]].
  destruct R as [[_ R]|(F & _ & R)]; rewrite R; [exact S3|]. cbn. intro Z.
  assert (Z' : (snd (k_bak k) - snd (c_caps c)) * (1 - (t - snd (k_time k)) / c_rest c) = 0) by lra.
  apply Rmult_integral in Z'. destruct Z'; lra.
Qed.

(** A step without emergency. *)
Definition calm (c : pcfg) (i : minp) : Prop :=
  ~ hot c i /\ ~ cold c 0 i /\ ~ cold c (c_hyst c) i.

Lemma calm_caps c s i r : run_mpc c s i = Some r -> calm c i ->
  m_caps r = m_caps s \/ m_caps r = restore c (i_t i) (m_caps s).
Proof.
  intros E (NH & N0 & N1).
  destruct (run_unfold c s i r E) as (s1 & em & th & next & rest & EM & _ & U).
  cbv zeta in U. destruct U as (_ & _ & _ & U4 & _).
  assert (NM : ~ cold c (margin c s) i).
  { unfold margin. destruct (c_use_hyst c && m_cons s)%bool; assumption. }
  destruct (emergency_cases _ _ _ _ _ _ EM) as [C|[C|C]]; [tauto|tauto|].
  destruct C as (_ & _ & -> & _ & _ & _ & _ & _ & C). rewrite U4. unfold after_opt.
  destruct (Rle_dec next (i_t i)); cbn [finalize longterm m_caps]; rewrite C; auto.
Qed.

(** The limit that was adapted last never returns to its configured value by itself: over every
    run without a further emergency, however long and with whatever time steps, it stays off. *)
Theorem C48_lower_refuted : forall c l s r, run_all c s l = Some r -> Forall (calm c) l ->
  0 < c_rest c -> stuck_lower c (m_caps s) -> fst (k_use (m_caps r)) <> fst (c_caps c).
Proof.
  intros c l s r E F T S. revert s E S. induction l as [|i l IH]; intros s E S.
  - cbn in E. injection E as <-. apply S.
  - cbn [run_all] in E. destruct (run_mpc c s i) as [s1|] eqn:RM; [|discriminate].
    inversion F as [|u v F1 F2]; subst. apply (IH F2 s1 E).
    destruct (calm_caps c s i s1 RM F1) as [->| ->]; [exact S|now apply stuck_lower_step].
Qed.

Theorem C48_upper_refuted : forall c l s r, run_all c s l = Some r -> Forall (calm c) l ->
  0 < c_rest c -> stuck_upper c (m_caps s) -> snd (k_use (m_caps r)) <> snd (c_caps c).
Proof.
  intros c l s r E F T S. revert s E S. induction l as [|i l IH]; intros s E S.
  - cbn in E. injection E as <-. apply S.
  - cbn [run_all] in E. destruct (run_mpc c s i) as [s1|] eqn:RM; [|discriminate].
    inversion F as [|u v F1 F2]; subst. apply (IH F2 s1 E).
    destruct (calm_caps c s i s1 RM F1) as [->| ->]; [exact S|now apply stuck_upper_step].
Qed.

(** An adaption at time [t >= 0] to a value other than the configured one leads to such a state. *)
Theorem C48_adapted : forall c k t now,
  (snd (k_time k) <= t -> now <> fst (c_caps c) -> stuck_lower c (adapt true false t now k)) /\
  (fst (k_time k) <= t -> now <> snd (c_caps c) -> stuck_upper c (adapt false false t now k)).
Proof. intros c k t now. unfold stuck_lower, stuck_upper, adapt. cbn. tauto. Qed.

(** What does hold: if limits are restored at least every [d] seconds, at most the fraction
    [d / restore time] of the adaption is left after the restore time. *)
Definition restores (c : pcfg) (k : caps) (ts : list R) : caps :=
  fold_left (fun k t => restore c t k) ts k.

(** Increasing times with gaps of at most [d], starting after [p]. *)
Fixpoint gaps (d p : R) (ts : list R) : Prop :=
  match ts with [] => True | t :: ts => p <= t <= p + d /\ gaps d t ts end.

Lemma restores_off c k ts : k_adp k = false -> restores c k ts = k.
Proof.
  intro A. induction ts as [|t ts IH]; [reflexivity|]. unfold restores in *. cbn [fold_left].
  rewrite restore_off by assumption. exact IH.
Qed.

Lemma last_shift (ts : list R) : forall t p, last (t :: ts) p = last ts t.
Proof.
  induction ts as [|a ts IH]; intros t p; [reflexivity|].
  change (last (t :: a :: ts) p) with (last (a :: ts) p). now rewrite (IH a p), (IH a t).
Qed.

Lemma restores_lower c d ts : 0 < c_rest c -> 0 <= d -> forall k p,
  k_adp k = true -> snd (k_time k) <= fst (k_time k) -> fst (k_time k) <= p ->
  p < fst (k_time k) + c_rest c ->
  fst (k_use k) = fst (c_caps c) +
    (fst (k_bak k) - fst (c_caps c)) * (1 - (p - fst (k_time k)) / c_rest c) ->
  gaps d p ts ->
  Rabs (fst (k_use (restores c k ts)) - fst (c_caps c)) <=
    Rabs (fst (k_bak k) - fst (c_caps c)) * Rmax (d / c_rest c) (1 - (last ts p - fst (k_time k)) / c_rest c).
Proof.
  intros T D. induction ts as [|t ts IH]; intros k p A L P0 P1 U G.
  - cbn [restores fold_left last]. rewrite U.
    set (b := fst (k_bak k) - fst (c_caps c)). set (f := 1 - (p - fst (k_time k)) / c_rest c).
    replace (fst (c_caps c) + b * f - fst (c_caps c)) with (b * f) by ring.
    assert (F : 0 <= f).
    { unfold f. assert ((p - fst (k_time k)) / c_rest c <= 1); [|lra].
      apply Rmult_le_reg_r with (c_rest c); [lra|]. unfold Rdiv.
      rewrite Rmult_assoc, Rinv_l by lra. lra. }
    rewrite Rabs_mult, (Rabs_pos_eq f) by exact F.
    apply Rmult_le_compat_l; [apply Rabs_pos|apply Rmax_r].
  - destruct G as [G1 G2].
    rewrite last_shift. change (restores c k (t :: ts)) with (restores c (restore c t k) ts).
    destruct (restore_lower c t k T A L) as (B & TM & R). cbv zeta in R.
    destruct R as [[F R]|(F & A' & R)].
    + rewrite R. rewrite restores_off by reflexivity. cbn [k_use]. rewrite U.
      set (b := fst (k_bak k) - fst (c_caps c)). set (f := 1 - (p - fst (k_time k)) / c_rest c).
      replace (fst (c_caps c) + b * f - fst (c_caps c)) with (b * f) by ring.
      assert (F0 : 0 <= f).
      { unfold f. assert ((p - fst (k_time k)) / c_rest c <= 1); [|lra].
        apply Rmult_le_reg_r with (c_rest c); [lra|]. unfold Rdiv.
        rewrite Rmult_assoc, Rinv_l by lra. lra. }
      rewrite Rabs_mult, (Rabs_pos_eq f) by exact F0.
      apply Rmult_le_compat_l; [apply Rabs_pos|].
      apply Rle_trans with (d / c_rest c); [|apply Rmax_l].
      unfold f. apply Rmult_le_reg_r with (c_rest c); [lra|].
      replace ((1 - (p - fst (k_time k)) / c_rest c) * c_rest c)
        with (c_rest c - (p - fst (k_time k))) by (field; lra).
      replace (d / c_rest c * c_rest c) with d by (field; lra).
      apply Rmult_le_compat_r with (r := c_rest c) in F; [|lra].
      replace ((t - fst (k_time k)) / c_rest c * c_rest c) with (t - fst (k_time k)) in F
        by (field; lra). lra.
    + rewrite <- TM, <- B. apply IH.
      * exact A'.
      * rewrite TM. exact L.
      * rewrite TM. lra.
      * rewrite TM. apply Rmult_lt_compat_r with (r := c_rest c) in F; [|lra].
        replace ((t - fst (k_time k)) / c_rest c * c_rest c) with (t - fst (k_time k)) in F
          by (field; lra). lra.
      * rewrite R, B, TM. reflexivity.
      * exact G2.
Qed.

Theorem C48_lower_partial : forall c k t0 now ts d, 0 < c_rest c -> 0 <= d ->
  snd (k_time k) <= t0 -> gaps d t0 ts -> t0 + c_rest c <= last ts t0 ->
  Rabs (fst (k_use (restores c (adapt true false t0 now k) ts)) - fst (c_caps c)) <=
    Rabs (now - fst (c_caps c)) * (d / c_rest c).
Proof.
  intros c k t0 now ts d T D L G E.
  assert (H := restores_lower c d ts T D (adapt true false t0 now k) t0).
  cbn [adapt k_adp k_time k_bak k_use fst snd] in H.
  assert (Z : now = fst (c_caps c) + (now - fst (c_caps c)) * (1 - (t0 - t0) / c_rest c))
    by (field; lra).
  specialize (H eq_refl L (Rle_refl t0) ltac:(lra) Z G).
  eapply Rle_trans; [exact H|].
  - apply Rmult_le_compat_l; [apply Rabs_pos|]. apply Rmax_lub; [lra|].
    assert (1 <= (last ts t0 - t0) / c_rest c).
    { apply Rmult_le_reg_r with (c_rest c); [lra|]. unfold Rdiv.
      rewrite Rmult_assoc, Rinv_l by lra. lra. }
    assert (0 <= d / c_rest c); [|lra].
    apply Rmult_le_pos; [lra|left; now apply Rinv_0_lt_compat].
Qed.

(** If the first optimisation step comes only after the restore time, nothing at all is
    restored, ever. *)
Theorem C48_late_refuted : forall c k t0 now t ts, 0 < c_rest c -> snd (k_time k) <= t0 ->
  t0 + c_rest c <= t ->
  k_use (restores c (adapt true false t0 now k) (t :: ts)) = (now, snd (k_use k)).
Proof.
  intros c k t0 now t ts T L E.
  change (restores c (adapt true false t0 now k) (t :: ts))
    with (restores c (restore c t (adapt true false t0 now k)) ts).
  destruct (restore_lower c t (adapt true false t0 now k) T eq_refl L) as (_ & _ & R).
  cbv zeta in R. destruct R as [[_ R]|(F & _)].
  - rewrite R, restores_off by reflexivity. reflexivity.
  - cbn [adapt k_time fst] in F. exfalso.
    apply Rmult_lt_compat_r with (r := c_rest c) in F; [|lra].
    replace ((t - t0) / c_rest c * c_rest c) with (t - t0) in F by (field; lra). lra.
Qed.

(** Default restore time (24 h) and period (15 min), lower limit adapted from 10 to 58 kWh: after
    96 periods half a kWh is left for ever. *)
Example C48_case : forall d,
  let c := cfg0 1 86400 in
  let k := adapt true false 900 58 (fresh_caps c) in
  fst (k_use (restores c k ([900 + 95 * 900] ++ (900 + 96 * 900) :: d))) = 10 + 48 / 96.
Proof.
  intros d c k.
  change (restores c k ([900 + 95 * 900] ++ (900 + 96 * 900) :: d))
    with (restores c (restore c (900 + 96 * 900) (restore c (900 + 95 * 900) k)) d).
  assert (RC : c_rest c = 86400) by reflexivity. assert (CC : fst (c_caps c) = 10) by reflexivity.
  assert (KT : k_time k = (900, 0)) by reflexivity.
  assert (KB : fst (k_bak k) = 58) by reflexivity. assert (KA : k_adp k = true) by reflexivity.
  clearbody k. clearbody c.
  destruct (restore_lower c (900 + 95 * 900) k) as (B & TM & R);
    [lra|exact KA|rewrite KT; cbn; lra|]. cbv zeta in R. rewrite KT, KB, RC, CC in R. cbn [fst] in R.
  destruct R as [[F _]|(F & A & R)]; [lra|].
  set (k1 := restore c (900 + 95 * 900) k) in *.
  destruct (restore_lower c (900 + 96 * 900) k1) as (B2 & TM2 & R2);
    [lra|exact A|rewrite TM, KT; cbn; lra|]. cbv zeta in R2. rewrite TM, KT, RC in R2. cbn [fst] in R2.
  destruct R2 as [[_ R2]|(F2 & _)]; [|lra]. rewrite R2.
  rewrite restores_off by reflexivity. cbn [k_use]. rewrite R. lra.
Qed.

(** ** C76: number of optimisations *)

(** Times of the calls: start at 0, increase by at most [oe], stay below the timeframe. *)
Fixpoint times_ok (oe tf p : R) (l : list minp) : Prop :=
  match l with [] => True | i :: l => p <= i_t i <= p + oe /\ i_t i < tf /\ times_ok oe tf (i_t i) l end.

Lemma ceil_spec x : 0 < x -> x <= INR (Z.to_nat (1 - up (- x))) < x + 1.
Proof.
  intro X. destruct (archimed (- x)) as [A B].
  assert (P : (0 <= 1 - up (- x))%Z).
  { assert (IZR (up (- x)) < IZR 2) by (cbn; lra). apply lt_IZR in H. lia. }
  rewrite INR_IZR_INZ, Z2Nat.id by exact P. rewrite minus_IZR. lra.
Qed.

Lemma opt_steps_nth oe tf n : let N := Z.to_nat (1 - up (- (tf / oe))) in
  (n <= N)%nat -> exists rest,
  skipn n (opt_steps oe tf) = (if Nat.ltb n N then INR n * oe else tf) :: rest /\
  rest = skipn (S n) (opt_steps oe tf).
Proof.
  intros N L. unfold opt_steps. fold N.
  set (l := map (fun i => INR i * oe) (seq 0 N) ++ [tf]).
  assert (E : nth_error l n = Some (if Nat.ltb n N then INR n * oe else tf)).
  { unfold l. destruct (Nat.ltb_spec n N) as [H|H].
    - rewrite nth_error_app1 by (rewrite map_length, seq_length; lia).
      erewrite map_nth_error; [reflexivity|].
      rewrite nth_error_nth' with (d := 0%nat) by (rewrite seq_length; lia).
      rewrite seq_nth by lia. reflexivity.
    - rewrite nth_error_app2 by (rewrite map_length, seq_length; lia).
      rewrite map_length, seq_length. replace (n - N)%nat with 0%nat by lia. reflexivity. }
  clearbody l. clear L. exists (skipn (S n) l). split; [|reflexivity].
  revert l E. generalize (if Nat.ltb n N then INR n * oe else tf). intro v.
  induction n as [|n IH]; intros l E; destruct l as [|a l]; try discriminate.
  - cbn in E |- *. congruence.
  - cbn [nth_error] in E. cbn [skipn] in IH |- *. rewrite (IH l E). reflexivity.
Qed.

Lemma steps_invariant c s i r : run_mpc c s i = Some r -> exists next rest,
  m_steps s = next :: rest /\
  (next <= i_t i /\ m_num r = S (m_num s) /\ m_steps r = rest \/
   i_t i < next /\ m_num r = m_num s /\ m_steps r = m_steps s).
Proof.
  intro E. destruct (run_unfold c s i r E) as (s1 & em & th & next & rest & EM & ST & U).
  cbv zeta in U. destruct U as (_ & _ & _ & _ & U5 & U6 & _).
  destruct (emergency_rest _ _ _ _ _ _ EM) as (_ & P2 & P3 & _).
  exists next, rest. split; [exact ST|]. rewrite U5, U6. unfold after_opt.
  destruct (Rle_dec next (i_t i)).
  - left. split; [assumption|]. destruct em; cbn [finalize longterm m_num m_steps];
    rewrite P2, P3, ST; auto.
  - right. split; [lra|]. now rewrite P2, P3.
Qed.

(** The controller never runs out of optimisation steps, and the number of optimisation periods
    begun up to the current time is exactly the number of steps taken: the profiles read
    ([num_opts] is the index into them) belong to the current period. *)
Theorem C76_steps : forall c oe tf l, 0 < oe -> 0 < tf -> l <> [] ->
  (forall i, hd_error l = Some i -> i_t i = 0) -> times_ok oe tf 0 l ->
  exists r, run_all c (init c oe tf) l = Some r /\
    forall t, t = i_t (last l (mkMinp 0 0 0 0 0 None 0)) ->
      (0 < m_num r)%nat /\ INR (m_num r - 1) * oe <= t < INR (m_num r) * oe.
Proof.
  intros c oe tf l O T NE H0 TK.
  set (N := Z.to_nat (1 - up (- (tf / oe)))).
  assert (TO : 0 < tf / oe) by (apply Rdiv_lt_0_compat; assumption).
  destruct (ceil_spec (tf / oe) TO) as [CN _]. fold N in CN.
  assert (NT : tf <= INR N * oe).
  { apply Rmult_le_compat_r with (r := oe) in CN; [|lra].
    replace (tf / oe * oe) with tf in CN by (field; lra). exact CN. }
  assert (G : forall l s p, m_steps s = skipn (m_num s) (opt_steps oe tf) -> (0 < m_num s <= N)%nat ->
    INR (m_num s - 1) * oe <= p < INR (m_num s) * oe -> times_ok oe tf p l ->
    exists r, run_all c s l = Some r /\ (0 < m_num r)%nat /\
      INR (m_num r - 1) * oe <= last (map i_t l) p < INR (m_num r) * oe).
  { clear l NE H0 TK. induction l as [|i l IH]; intros s p SK NB PB TK.
    - exists s. split; [reflexivity|]. split; [lia|exact PB].
    - destruct TK as (T1 & T2 & T3).
      destruct (opt_steps_nth oe tf (m_num s)) as (rest & SN & RN); [fold N; lia|]. fold N in SN.
      destruct (run_total c s i) as [r E]; [rewrite SK, SN; discriminate|].
      cbn [run_all]. rewrite E.
      destruct (steps_invariant c s i r E) as (next & rest' & S1 & S2).
      rewrite SK, SN in S1. injection S1 as S1 S3. subst next rest'.
      assert (PS : INR (S (m_num s)) * oe = INR (m_num s) * oe + oe) by (rewrite S_INR; ring).
      assert (PM : INR (m_num s - 1) * oe + oe = INR (m_num s) * oe).
      { rewrite <- (Nat.succ_pred_pos (m_num s)) at 2 by lia. rewrite S_INR.
        replace (m_num s - 1)%nat with (Nat.pred (m_num s)) by lia. ring. }
      cbn [map]. rewrite last_shift.
      destruct S2 as [(A & B & C)|(A & B & C)].
      + destruct (Nat.ltb_spec (m_num s) N) as [Q|Q]; [|lra].
        apply IH; [rewrite C, B; exact RN|lia|rewrite B; replace (S (m_num s) - 1)%nat with (m_num s) by lia; lra|exact T3].
      + apply IH; [rewrite C, B; exact SK|lia|rewrite B|exact T3].
        destruct (Nat.ltb_spec (m_num s) N) as [Q|Q]; [lra|].
        replace (m_num s) with N by lia. replace (m_num s) with N in PB, PM by lia. lra. }
  destruct l as [|i l]; [congruence|].
  assert (I0 : i_t i = 0) by (apply H0; reflexivity).
  destruct TK as (T1 & T2 & T3).
  assert (N1 : (0 < N)%nat).
  { destruct N; [cbn in NT; lra|lia]. }
  destruct (opt_steps_nth oe tf 0) as (rest & SN & RN); [fold N; lia|]. fold N in SN.
  destruct (Nat.ltb_spec 0 N) as [_|Q]; [|lia].
  destruct (run_total c (init c oe tf) i) as [r E].
  { change (m_steps (init c oe tf)) with (skipn 0 (opt_steps oe tf)). rewrite SN. discriminate. }
  destruct (steps_invariant c _ i r E) as (next & rest' & S1 & S2).
  change (m_steps (init c oe tf)) with (skipn 0 (opt_steps oe tf)) in S1.
  rewrite SN in S1. injection S1 as S1 S3. subst next rest'.
  change (m_num (init c oe tf)) with 0%nat in S2.
  destruct S2 as [(A & B & C)|(A & B & C)]; [|cbn [INR] in A; lra].
  destruct (G l r (i_t i)) as (r' & R1 & R2 & R3).
  - rewrite C, B. exact RN.
  - lia.
  - rewrite B. cbn [Nat.sub INR]. rewrite I0. lra.
  - exact T3.
  - exists r'. cbn [run_all]. rewrite E. split; [exact R1|]. intros t ->. split; [exact R2|].
    replace (i_t (last (i :: l) (mkMinp 0 0 0 0 0 None 0))) with (last (map i_t l) (i_t i));
      [exact R3|].
    clear. revert i. induction l as [|a l IH]; intro i; [reflexivity|].
    change (last (i :: a :: l) (mkMinp 0 0 0 0 0 None 0)) with (last (a :: l) (mkMinp 0 0 0 0 0 None 0)).
    rewrite <- IH. cbn [map]. apply last_shift.
Qed.

(** With time steps longer than the optimisation period the controller falls behind: one
    optimisation per step, however long the step. *)
Theorem C76_lag_refuted : exists c oe tf l r, 0 < oe /\ times_ok (4 * oe) tf 0 l /\
  run_all c (init c oe tf) l = Some r /\
  i_t (last l (quiet 0 0 0)) = 4 * oe /\ m_num r = 2%nat.
Proof.
  exists (cfg0 1 86400), 900, 36000, [quiet 0 0 0; quiet 3600 0 0].
  destruct (opt_steps_nth 900 36000 0) as (r0 & E0 & R0); [lia|].
  destruct (ceil_spec (36000 / 900)) as [C1 C2]; [lra|].
  set (N := Z.to_nat (1 - up (- (36000 / 900)))) in *.
  assert (NN : (3 <= N)%nat) by (apply INR_le; cbn; lra).
  destruct (opt_steps_nth 900 36000 1) as (r1 & E1 & R1); [fold N; lia|]. fold N in E1.
  destruct (Nat.ltb_spec 0 N); [|lia]. destruct (Nat.ltb_spec 1 N); [|lia].
  set (c := cfg0 1 86400).
  destruct (run_total c (init c 900 36000) (quiet 0 0 0)) as [s1 S1].
  { change (m_steps (init c 900 36000)) with (skipn 0 (opt_steps 900 36000)). rewrite E0. discriminate. }
  destruct (steps_invariant _ _ _ _ S1) as (n1 & t1 & A1 & B1).
  change (m_steps (init c 900 36000)) with (skipn 0 (opt_steps 900 36000)) in A1.
  rewrite E0 in A1. injection A1 as A1 A1'. subst n1 t1.
  change (m_num (init c 900 36000)) with 0%nat in B1. cbn [quiet i_t INR] in B1.
  destruct B1 as [(_ & B2 & B3)|(B2 & _)]; [|lra].
  rewrite R0, E1 in B3.
  destruct (run_total c s1 (quiet 3600 0 0)) as [s2 S2]; [rewrite B3; discriminate|].
  destruct (steps_invariant _ _ _ _ S2) as (n2 & t2 & A2 & D2). rewrite B3 in A2.
  injection A2 as A2 A2'. subst n2 t2. cbn [quiet i_t INR] in D2.
  destruct D2 as [(_ & D2 & _)|(D2 & _)]; [|lra].
  exists s2. split; [lra|]. split; [cbn; lra|]. split; [cbn [run_all]; rewrite S1, S2; reflexivity|].
  split; [cbn; lra|congruence].
Qed.

Example C76_case : times_ok 900 1800 0 [quiet 0 0 0; quiet 500 0 0; quiet 1000 0 0].
Proof. cbn. lra. Qed.

(** ** C77: the adapted limits stay in order *)

(** They do if every lower adaption happens below, and every upper one above, some heat content
    [m] between the configured limits ... *)
Definition ordered_by (c : pcfg) (m : R) (k : caps) : Prop :=
  fst (k_use k) <= m <= snd (k_use k) /\ fst (k_bak k) <= m <= snd (k_bak k) /\
  0 <= fst (k_time k) /\ 0 <= snd (k_time k).

Lemma mix_le a b m g : a <= m -> b <= m -> 0 <= g <= 1 -> a * (1 - g) + b * g <= m.
Proof. intros. nra. Qed.
Lemma mix_ge a b m g : m <= a -> m <= b -> 0 <= g <= 1 -> m <= a * (1 - g) + b * g.
Proof. intros. nra. Qed.

Lemma restore_ordered c m t k : 0 < c_rest c -> fst (c_caps c) <= m <= snd (c_caps c) ->
  fst (k_time k) <= t -> snd (k_time k) <= t -> ordered_by c m k -> ordered_by c m (restore c t k).
Proof.
  intros T M A B (U & K & Z). unfold restore. destruct (k_adp k); [|now split].
  set (f0 := (t - fst (k_time k)) / c_rest c). set (f1 := (t - snd (k_time k)) / c_rest c).
  assert (F0 : 0 <= f0) by (apply Rmult_le_pos; [lra|left; now apply Rinv_0_lt_compat]).
  assert (F1 : 0 <= f1) by (apply Rmult_le_pos; [lra|left; now apply Rinv_0_lt_compat]).
  assert (G : ordered_by c m (mkCaps
     (fst (k_bak k) * (1 - (if Rlt_dec 1 f0 then 1 else f0)) + fst (c_caps c) * (if Rlt_dec 1 f0 then 1 else f0),
      snd (k_bak k) * (1 - (if Rlt_dec 1 f1 then 1 else f1)) + snd (c_caps c) * (if Rlt_dec 1 f1 then 1 else f1))
     (k_bak k) (k_time k) true)).
  { unfold ordered_by. cbn [k_use k_bak k_time fst snd]. split; [|split; assumption].
    split; [apply mix_le|apply mix_ge]; try tauto;
    destruct (Rlt_dec 1 _); lra. }
  destruct (Rle_dec 1 f0); [destruct (Rle_dec 1 f1)|]; [now split|exact G|exact G].
Qed.

Theorem C77_ordered_partial : forall c m k t now,
  0 < c_rest c -> fst (c_caps c) <= m <= snd (c_caps c) -> 0 <= t ->
  fst (k_time k) <= t -> snd (k_time k) <= t -> ordered_by c m k ->
  ordered_by c m (restore c t k) /\
  (now <= m -> ordered_by c m (adapt true false t now k)) /\
  (m <= now -> ordered_by c m (adapt false false t now k)).
Proof.
  intros c m k t now T M T0 A B O. split; [now apply restore_ordered|].
  destruct O as (U & K & Z). unfold ordered_by, adapt. cbn [k_use k_bak k_time fst snd]. lra.
Qed.

(** ... but in general they cross: a cold sensor at a heat content of 60 kWh, later a hot process
    value at 50 kWh.  Then no modulation plan satisfies both storage limits (C45_crossed). *)
Definition cold_in (t heat : R) : minp := mkMinp t 50 60 80 heat None (1 / 2).
Definition hot_in (t heat : R) : minp := mkMinp t 70 90 80 heat None (1 / 2).

Theorem C77_crossed_refuted : exists c s l r,
  c_caps c = (10, 100) /\ k_use (m_caps s) = c_caps c /\ run_all c s l = Some r /\
  k_use (m_caps r) = (60, 50) /\
  (forall e0 pth oe dmd n size x, plan_for dmd n size x -> (0 < length x)%nat ->
    any_neg (empty_limit e0 (fst (k_use (m_caps r))) pth oe dmd n size x) = true \/
    any_neg (full_limit e0 (snd (k_use (m_caps r))) pth oe dmd n size x) = true).
Proof.
  set (c := cfg0 1 86400). set (k1 := mkCaps (60, 100) (60, 100) (1, 0) true).
  set (k2 := mkCaps (60, 50) (60, 50) (1, 3) true).
  set (s0 := mkMst 0 0 false false (fresh_caps c) 0 1 [900]).
  assert (R1 : exists s1, run_mpc c s0 (cold_in 1 60) = Some s1 /\ m_caps s1 = k1 /\
                          m_cons s1 = true /\ m_steps s1 = [900]).
  { destruct (run_total c s0 (cold_in 1 60)) as [s1 E]; [discriminate|].
    exists s1. split; [exact E|].
    destruct (run_unfold _ _ _ _ E) as (s' & em & th & next & rest & EM & ST & U).
    cbv zeta in U. destruct U as (_ & U2 & _ & U4 & _ & U6 & _).
    injection ST as <- <-.
    destruct (emergency_rest _ _ _ _ _ _ EM) as (_ & _ & P3 & P4).
    destruct (emergency_caps _ _ _ _ _ _ EM) as (_ & Q).
    assert (NH : ~ hot c (cold_in 1 60)) by (unfold hot; cbn; lra).
    assert (CO : cold c (margin c s0) (cold_in 1 60)) by (unfold cold, margin; cbn; lra).
    specialize (Q NH CO).
    destruct (emergency_cases _ _ _ _ _ _ EM) as [C|[C|C]]; [tauto| |tauto].
    destruct C as (_ & _ & C & _).
    unfold after_opt in *. cbn [i_t cold_in] in *. destruct (Rle_dec 900 1); [lra|].
    rewrite U4, U2, U6, P3, Q. repeat split; assumption || reflexivity. }
  destruct R1 as (s1 & E1 & K1 & C1 & P1).
  assert (R2 : exists s2, run_mpc c s1 (quiet 2 0 0) = Some s2 /\ m_caps s2 = k1 /\
                          m_cons s2 = false /\ m_steps s2 = [900]).
  { destruct (run_total c s1 (quiet 2 0 0)) as [s2 E2]; [rewrite P1; discriminate|].
    exists s2. split; [exact E2|].
    destruct (run_unfold _ _ _ _ E2) as (s' & em & th & next & rest & EM & ST & U).
    cbv zeta in U. destruct U as (_ & U2 & _ & U4 & _ & U6 & _).
    rewrite P1 in ST. injection ST as <- <-.
    destruct (emergency_rest _ _ _ _ _ _ EM) as (_ & _ & P3 & _).
    destruct (emergency_cases _ _ _ _ _ _ EM) as [C|[C|C]].
    - destruct C as (C & _). unfold hot in C. cbn in C. lra.
    - destruct C as (_ & C & _). unfold cold, margin in C. rewrite C1 in C. cbn in C. lra.
    - destruct C as (_ & _ & -> & _ & _ & _ & _ & _ & C).
      unfold after_opt in *. cbn [i_t quiet] in *. destruct (Rle_dec 900 2); [lra|].
      rewrite U4, U2, U6, C, P3. auto. }
  destruct R2 as (s2 & E2 & K2 & C2 & P2).
  assert (R3 : exists s3, run_mpc c s2 (hot_in 3 50) = Some s3 /\ m_caps s3 = k2).
  { destruct (run_total c s2 (hot_in 3 50)) as [s3 E]; [rewrite P2; discriminate|].
    exists s3. split; [exact E|].
    destruct (run_unfold _ _ _ _ E) as (s' & em & th & next & rest & EM & ST & U).
    cbv zeta in U. destruct U as (_ & _ & _ & U4 & _).
    rewrite P2 in ST. injection ST as <- <-.
    destruct (emergency_caps _ _ _ _ _ _ EM) as (Q & _).
    rewrite U4. unfold after_opt. cbn [i_t hot_in]. destruct (Rle_dec 900 3); [lra|].
    rewrite Q, C2, K2; [reflexivity|unfold hot; cbn; lra|].
    unfold cold, margin. rewrite C2. cbn. lra. }
  destruct R3 as (s3 & E3 & K3).
  exists c, s0, [cold_in 1 60; quiet 2 0 0; hot_in 3 50], s3.
  split; [reflexivity|]. split; [reflexivity|].
  split; [cbn [run_all]; rewrite E1, E2, E3; reflexivity|].
  rewrite K3. split; [reflexivity|]. intros e0 pth oe dmd n size x P X.
  apply C45_crossed; auto. cbn. lra.
Qed.

(** The hypotheses of C47: a cold and a hot input, and the state that leaks. *)
Example C47_case : let c := cfg0 1 86400 in
  let s := mkMst 0 0 true false (fresh_caps c) 0 1 [900] in
  (exists r, run_mpc c s (cold_in 1 60) = Some r) /\ cold c (margin c s) (cold_in 1 60) /\
  ~ hot c (cold_in 1 60) /\ hot c (hot_in 1 60) /\
  (let i := mkMinp 1 (60 + 1 / 2) 60 80 50 None (1 / 2) in
   (exists r, run_mpc c s i = Some r) /\ ~ cold c 0 i /\ cold c (c_hyst c) i /\ ~ hot c i).
Proof.
  intros c s. split; [apply run_total; discriminate|].
  split; [unfold cold, margin; cbn; lra|]. split; [unfold hot; cbn; lra|].
  split; [unfold hot; cbn; lra|]. intro i. split; [apply run_total; discriminate|].
  split; [|split]; unfold cold, hot; cbn; lra.
Qed.

Print Assumptions C46_output_partial.
Print Assumptions C46_output_refuted.
Print Assumptions C47_off.
Print Assumptions C47_on.
Print Assumptions C47_none.
Print Assumptions C47_history_partial.
Print Assumptions C47_leak_refuted.
Print Assumptions C48_lower_refuted.
Print Assumptions C48_upper_refuted.
Print Assumptions C48_adapted.
Print Assumptions C48_lower_partial.
Print Assumptions C48_late_refuted.
Print Assumptions C76_steps.
Print Assumptions C76_lag_refuted.
Print Assumptions C77_ordered_partial.
Print Assumptions C77_crossed_refuted.
