(** C110-C114: implicit solving of discretised parts. *)
From Coq Require Import Reals List Bool Arith Lra Lia.
From Verif Require Import MFlow MWater MDiff MMix MHexNum MImpl MSolver MHeun SFlow SMix SHexNum.
From Verif Require Import LFlow LHexNum LHexNum2 LHexNum3 LImpl LImpl2 PHexNum.
Import ListNotations.
Open Scope R_scope.

(** [y] solves the equation of one implicit half step of size [h] from [yp] exactly. *)
Definition solves (n : nat) (d : grid -> grid) (y yp : grid) (h : R) : Prop :=
  forall i c, (i < n)%nat -> (c < 3)%nat -> y i c = yp i c + h * d y i c.
Definition between (n : nat) (lo hi : R) (y : grid) : Prop :=
  forall i c, (i < n)%nat -> (c < 3)%nat -> lo <= y i c <= hi.
Definition ports_between (lo hi : R) (Tp : arr) : Prop := forall p, (p < 4)%nat -> lo <= Tp p <= hi.

Lemma solves_root n d y yp h : solves n d y yp h ->
  forall i c, (i < n)%nat -> (c < 3)%nat -> imp_root d y yp h i c = 0.
Proof. intros S i c Hi Hc. unfold imp_root. rewrite (S i c Hi Hc) at 1. ring. Qed.
Lemma root_solves n d y yp h : (forall i c, (i < n)%nat -> (c < 3)%nat -> imp_root d y yp h i c = 0) ->
  solves n d y yp h.
Proof. intros S i c Hi Hc. specialize (S i c Hi Hc). unfold imp_root in S. lra. Qed.

(** ** C110: implicit steps of any size stay within the temperatures they start from *)
Theorem C110_no_overshoot : forall g junk io f B Tp y yp h lo hi, hn_ok g ->
  hflows_at (hn_n g) f -> (forall k, 0 < junk k) -> 0 <= h ->
  hn_range g (ext_of (hn_n g) B y) Tp ->
  solves (hn_n g) (hexn_rate g junk io f B Tp) y yp h ->
  between (hn_n g) lo hi yp -> ports_between lo hi Tp -> between (hn_n g) lo hi y.
Proof.
  intros g junk io f B Tp y yp h lo hi G F J Hh W S Hy Hp i c Hi Hc.
  pose proof (solves_root _ _ _ _ _ S) as R0. split.
  - pose proof (imp_bound g junk io f B Tp y yp h (-1) lo G W F J Hh ltac:(right; reflexivity) R0) as X.
    specialize (X ltac:(intros i' c' Hi' Hc'; specialize (Hy i' c' Hi' Hc'); lra)
      ltac:(intros p Hpp; specialize (Hp p Hpp); lra) i c Hi Hc). lra.
  - pose proof (imp_bound g junk io f B Tp y yp h 1 hi G W F J Hh ltac:(left; reflexivity) R0) as X.
    specialize (X ltac:(intros i' c' Hi' Hc'; specialize (Hy i' c' Hi' Hc'); lra)
      ltac:(intros p Hpp; specialize (Hp p Hpp); lra) i c Hi Hc). lra.
Qed.

(** Whole steps: any number of them with any sizes, flows and port temperatures, as long as the
    root finder delivers exact solutions within the range of liquid water. *)
Theorem C110_run : forall g B lo hi root (junk : nat -> R) (io : nat -> arr) (f : nat -> hflows)
  (Tp1 Tp2 : nat -> arr) (h : nat -> R) (y : nat -> grid),
  hn_ok g -> (forall k, 0 < junk k) ->
  (forall s, hflows_at (hn_n g) (f s) /\ 0 <= h s /\
             ports_between lo hi (Tp1 s) /\ ports_between lo hi (Tp2 s)) ->
  let d1 := fun s => hexn_rate g junk (io s) (f s) B (Tp1 s) in
  let d2 := fun s => hexn_rate g junk (io s) (f s) B (Tp2 s) in
  (forall s, y (S s) = impl_step root (d1 s) (d2 s) (h s) (y s)) ->
  (forall s d Tp yp, (d = d1 s /\ Tp = Tp1 s) \/ (d = d2 s /\ Tp = Tp2 s) ->
     let z := root (fun x => imp_root d x yp (h s / 2)) yp in
     (forall i c, (i < hn_n g)%nat -> (c < 3)%nat -> imp_root d z yp (h s / 2) i c = 0) /\
     hn_range g (ext_of (hn_n g) B z) Tp) ->
  between (hn_n g) lo hi (y 0%nat) -> forall s, between (hn_n g) lo hi (y s).
Proof.
  intros g B lo hi root junk io f Tp1 Tp2 h y G J H d1 d2 Y Rt Y0 s.
  induction s as [|s IH]; [exact Y0|]. rewrite Y. unfold impl_step.
  destruct (H s) as (F & Hh & P1 & P2).
  set (z := root (fun x => imp_root (d1 s) x (y s) (h s / 2)) (y s)).
  destruct (Rt s (d1 s) (Tp1 s) (y s) ltac:(left; split; reflexivity)) as [S1 W1]. fold z in S1, W1.
  assert (Z : between (hn_n g) lo hi z).
  { apply (C110_no_overshoot g junk (io s) (f s) B (Tp1 s) z (y s) (h s / 2)); try assumption; [lra|].
    now apply root_solves. }
  destruct (Rt s (d2 s) (Tp2 s) z ltac:(right; split; reflexivity)) as [S2 W2].
  apply (C110_no_overshoot g junk (io s) (f s) B (Tp2 s) _ z (h s / 2)); try assumption; [lra|].
  now apply root_solves.
Qed.
(** A step of an hour for the exchanger of C88 that ends at 60, 50 and 40 degrees. *)
Definition yex : grid := fun i c => Txw 50 (S i) (S c).
Example C110_example : forall junk, (forall k, 0 < junk k) ->
  let g := gw 3 2 1 in let d := hexn_rate g junk (iow 2 1) hflows0 (fun _ _ => 0) Tpw in
  exists yp, solves (hn_n g) d yex yp 3600 /\ hn_ok g /\
    hn_range g (ext_of (hn_n g) (fun _ _ => 0) yex) Tpw /\
    exists lo hi, between (hn_n g) lo hi yp /\ ports_between lo hi Tpw /\ between (hn_n g) lo hi yex.
Proof.
  intros junk J g d. exists (fun i c => yex i c - 3600 * d yex i c).
  assert (S : solves (hn_n g) d yex (fun i c => yex i c - 3600 * d yex i c) 3600)
    by (intros i c _ _; ring).
  assert (G : hn_ok g) by (apply gw_ok; lia || lra).
  assert (W : hn_range g (ext_of (hn_n g) (fun _ _ => 0) yex) Tpw).
  { split; [|apply (Txw_range 3 2 1 50); lra]. intros i c Hi Hc. rewrite ext_in by assumption.
    unfold yex. apply (Txw_range 3 2 1 50); [lra|exact Hi|exact Hc]. }
  split; [exact S|]. split; [exact G|]. split; [exact W|].
  set (yp := fun i c => yex i c - 3600 * d yex i c) in *.
  assert (exists lo hi, between (hn_n g) lo hi yp /\ ports_between lo hi Tpw) as (lo & hi & A & Bp).
  { set (a := yp 0%nat 0%nat). set (b := yp 0%nat 1%nat). set (c := yp 0%nat 2%nat).
    pose proof (Rabs_pos a). pose proof (Rabs_pos b). pose proof (Rabs_pos c).
    assert (Q : forall x, - Rabs x <= x <= Rabs x).
    { intros x. unfold Rabs. destruct (Rcase_abs x); lra. }
    exists (- (Rabs a + Rabs b + Rabs c + 100)), (Rabs a + Rabs b + Rabs c + 100). split.
    - intros i k Hi Hk. cbn in Hi. replace i with 0%nat by lia.
      destruct k as [|[|[|k]]]; [fold a; specialize (Q a)|fold b; specialize (Q b)|fold c; specialize (Q c)|lia]; lra.
    - intros p Hp. destruct p as [|[|[|[|p]]]]; cbn [Tpw]; [| | | |lia]; lra. }
  exists lo, hi. split; [exact A|]. split; [exact Bp|].
  apply (C110_no_overshoot g junk (iow 2 1) hflows0 (fun _ _ => 0) Tpw yex yp 3600); try assumption;
    [constructor|lra].
Qed.
Print Assumptions C110_no_overshoot.
Print Assumptions C110_run.

(** ** C111: heat balance of an implicit half step *)
Theorem C111_energy : forall g junk io f B Tp y yp h, hn_ok g -> hflows_at (hn_n g) f ->
  let Tx := ext_of (hn_n g) B y in hn_range g Tx Tp ->
  solves (hn_n g) (hexn_rate g junk io f B Tp) y yp h ->
  let r := hexn_diff g junk io f Tx Tp in
  hheat g Tx (fun i c => y i c - yp i c) =
  h * (port_heat g (hr_uap r) Tx Tp + side_heat g io Tx Tp 0 / INR (hn_div g 0)
       + side_heat g io Tx Tp 1 / INR (hn_div g 1)).
Proof.
  intros g junk io f B Tp y yp h G F Tx W S r.
  assert (E : hheat g Tx (fun i c => y i c - yp i c) = h * hheat g Tx (hr_tot r)).
  { unfold hheat. rewrite <- rsum_scal. apply rsum_ext. intros i Hi.
    rewrite <- rsum_scal. apply rsum_ext. intros c Hc. rewrite (S i c Hi Hc) at 1.
    change (hr_tot r i c) with (hexn_rate g junk io f B Tp y i c). ring. }
  rewrite E. f_equal.
  assert (D : hheat g Tx (hr_tot r) = hheat g Tx (hr_cond r) + hheat g Tx (hr_adv r)).
  { unfold hheat. rewrite <- rsum_plus. apply rsum_ext. intros i Hi. rewrite <- rsum_plus.
    apply rsum_ext. intros c Hc. change (hr_tot r i c) with (hr_cond r i c + hr_adv r i c). ring. }
  rewrite D. unfold r at 1. rewrite (C87_conduction g junk io f Tx Tp G W F). fold r.
  rewrite Rplus_assoc. f_equal.
  destruct (C87_advection g junk io f Tx Tp 0 G W F ltac:(lia)) as [A0 A1].
  destruct (C87_advection g junk io f Tx Tp 1 G W F ltac:(lia)) as [A2 _]. fold r in A0, A1, A2.
  assert (H : hheat g Tx (hr_adv r) = hheat_col g Tx (hr_adv r) 0 + hheat_col g Tx (hr_adv r) 2).
  { unfold hheat, hheat_col. rewrite <- rsum_plus. apply rsum_ext. intros i Hi. cbn [rsum].
    rewrite A1. ring. }
  rewrite H. pose proof G as (_ & N0 & N1 & _).
  assert (I0 : INR (hn_div g 0) <> 0) by (apply not_0_INR; lia).
  assert (I1 : INR (hn_div g 1) <> 0) by (apply not_0_INR; lia).
  rewrite <- A0, <- A2. cbn [Nat.mul Nat.add]. field. split; assumption.
Qed.
Example C111_example : forall junk, (forall k, 0 < junk k) ->
  let g := gw 3 2 1 in let B := fun _ _ : nat => 0 in
  exists yp, solves (hn_n g) (hexn_rate g junk (iow 2 1) hflows0 B Tpw) yex yp 3600 /\
    hn_range g (ext_of (hn_n g) B yex) Tpw.
Proof.
  intros junk J g B. destruct (C110_example junk J) as (yp & S & _ & W & _). exists yp.
  split; assumption.
Qed.
Print Assumptions C111_energy.

(** ** C112: the error control does not see implicitly solved parts *)
(** Implicit half step of a cell relaxing to 20 degrees with rate [k], solved exactly. *)
Definition relax_part (k : R) : ipart := fun h _ y => map (fun x => 20 + (x - 20) / (1 + k * h)) y.
(** A cell at rest. *)
Definition rest_part : epart unit := mkEpart (fun _ _ y b => (map (fun _ => 0) y, None, b)) [1].
Definition relax_model (k rtol atol : R) : model unit :=
  mkModel [rest_part] [] [relax_part k] [] rtol atol 1.
Definition relax_mem (T0 : R) : mem unit :=
  mkMem [] [] [[20]] [[T0]] [[20]] [[0]] [[0]] [tt] [[20]] [] [] [[T0]] [[T0]].

(** Whatever an implicitly solved part returns, a step is accepted at once with the size it was
    tried with when the explicit parts are at rest. *)
Theorem C112_any_root_refuted : forall (ip : ipart) rtol atol T0 c s fuel, 0 < rtol -> 0 < atol ->
  let mo := mkModel [rest_part] [] [ip] [] rtol atol 1 in
  exists m' s', heun_adaptive mo c (S fuel) (relax_mem T0) s = FAccepted (s_h s) m' s' /\
    m_ires m' = [ip (s_h s / 2) [] (ip (s_h s / 2) [] [T0])].
Proof.
  intros ip rtol atol T0 c s fuel Hr Ha mo.
  unfold heun_adaptive. cbn [full_loop].
  set (E := num_attempt mo (s_h (enter s)) _).
  assert (EE : exists m', E = (m', OStable [] (ENum 0)) /\
    m_ires m' = [ip (s_h s / 2) [] (ip (s_h s / 2) [] [T0])]).
  { unfold E, num_attempt, mo, relax_mem, rest_part, enter, vadd, vscale, sys_err.
    cbn [mo_e mo_i mo_n mo_ports mo_rtol mo_atol mo_cells m_ports m_bkp m_prevE m_prevI m_T m_df0 m_df1 m_buf
         m_resE m_nT m_nres m_iT m_ires predict correct imap map ep_diff ep_weight update_ports
         fold_left trnc_err vmap2 s_h].
    eexists. split; [apply f_equal2; [reflexivity|]|cbn [m_ires]; reflexivity]. do 2 f_equal.
    match goal with |- sqrt ?x = 0 => replace x with 0; [apply sqrt_0|] end.
        unfold vadd, vscale. cbn [vmap2 map trnc_err].
    match goal with |- context [(?a - ?b) * 1 / _] => replace (a - b) with 0 by ring end.
    unfold Rdiv. rewrite !Rmult_0_l. cbn [pow]. ring. }
  destruct EE as (m' & EE & I). rewrite EE. unfold attempt. cbn [fold_left].
  destruct (Rlt_dec 0 0) as [L|L]; [lra|]. destruct (Req_EM_T 0 0) as [_|N]; [|lra].
  eexists m', _. split; [reflexivity|exact I].
Qed.
(** Cooling from 80 degrees: for every tolerance the step with [k * h = 2] is accepted although
    its result is more than 6 kelvin off the exact solution. *)
Theorem C112_tolerance_refuted : forall k rtol atol c s fuel, 0 < rtol -> 0 < atol -> 0 < s_h s ->
  k * s_h s = 2 ->
  exists m' s' T, heun_adaptive (relax_model k rtol atol) c (S fuel) (relax_mem 80) s
    = FAccepted (s_h s) m' s' /\ m_ires m' = [[T]] /\
    T - (20 + (80 - 20) * exp (- (k * s_h s))) > 6.
Proof.
  intros k rtol atol c s fuel Hr Ha Hh K.
  destruct (C112_any_root_refuted (relax_part k) rtol atol 80 c s fuel Hr Ha) as (m' & s' & E & I).
  exists m', s', 35. split; [exact E|]. split.
  - rewrite I. unfold relax_part. cbn [map]. replace (k * (s_h s / 2)) with 1 by lra.
    repeat f_equal. field.
  - rewrite K. replace (- (2)) with (-1 + -1) by lra. rewrite exp_plus.
    assert (X : exp (-1) <= 0.379).
    { replace (-1) with (- (1)) by lra. rewrite exp_Ropp.
      assert (P : exp 1 >= 2.640625).
      { assert (Q4 : 1 + 1/4 < exp (1/4)) by (apply exp_ineq1; lra).
        assert (Q8 : 1 + 1/8 < exp (1/8)) by (apply exp_ineq1; lra).
        assert (Q16 : 1 + 1/16 < exp (1/16)) by (apply exp_ineq1; lra).
        assert (Q32 : 1 + 1/32 < exp (1/32)) by (apply exp_ineq1; lra).
        assert (S16 : exp (1/16) = exp (1/32) * exp (1/32)) by (rewrite <- exp_plus; f_equal; lra).
        assert (S8 : exp (1/8) = exp (1/16) * exp (1/16)) by (rewrite <- exp_plus; f_equal; lra).
        assert (S4 : exp (1/4) = exp (1/8) * exp (1/8)) by (rewrite <- exp_plus; f_equal; lra).
        assert (S2 : exp (1/2) = exp (1/4) * exp (1/4)) by (rewrite <- exp_plus; f_equal; lra).
        assert (S1 : exp 1 = exp (1/2) * exp (1/2)) by (rewrite <- exp_plus; f_equal; lra).
        assert (V16 : 1.0634 <= exp (1/16)) by nra.
        assert (V8 : 1.1308 <= exp (1/8)) by nra.
        assert (V4 : 1.2787 <= exp (1/4)) by nra.
        assert (V2 : 1.635 <= exp (1/2)) by nra. nra. }
      apply Rmult_le_reg_l with (exp 1); [lra|]. rewrite Rinv_r by lra. lra. }
    pose proof (exp_pos (-1)). nra.
Qed.
Print Assumptions C112_any_root_refuted.
Print Assumptions C112_tolerance_refuted.

(** ** C113: systems without explicitly solved discretised part *)
Lemma cells_fold ps : forall a, fold_left (fun acc p =>
  if (cp_numeric p && cp_explicit p)%bool then (acc + cp_gp p)%nat else acc) ps a
  = (a + cells_expl ps)%nat.
Proof.
  unfold cells_expl. induction ps as [|p ps IH]; intros a; cbn [fold_left]; [lia|].
  rewrite IH, (IH (if (cp_numeric p && cp_explicit p)%bool then _ else _)).
  destruct (cp_numeric p && cp_explicit p)%bool; lia.
Qed.
(** The first attempt of the first step divides by zero exactly if no part is discretised and
    solved explicitly; such systems cannot be simulated, e.g. a pump, connectors and implicitly
    solved heat exchangers. *)
Theorem C113_no_explicit_refuted : forall ps err, (forall p, In p ps -> (1 <= cp_gp p)%nat) ->
  err_rms err (cells_expl ps) = None <->
  (forall p, In p ps -> cp_numeric p = true -> cp_explicit p = false).
Proof.
  intros ps err Gp.
  assert (E : cells_expl ps = 0%nat <->
    (forall p, In p ps -> cp_numeric p = true -> cp_explicit p = false)).
  { induction ps as [|p ps IH].
    - split; [intros _ p []|reflexivity].
    - specialize (IH ltac:(intros x Hx; apply Gp; now right)).
      unfold cells_expl. cbn [fold_left]. rewrite cells_fold.
      pose proof (Gp p ltac:(now left)) as G1.
      destruct (cp_numeric p) eqn:E1, (cp_explicit p) eqn:E2; cbn [andb]; split.
      + intros; lia.
      + intros H. specialize (H p ltac:(now left) E1). congruence.
      + intros H x [<-|Hx] X; [exact E2|]. apply IH; [lia|assumption|assumption].
      + intros H. apply IH. intros x Hx. apply H. now right.
      + intros H x [<-|Hx] X; [congruence|]. apply IH; [lia|assumption|assumption].
      + intros H. apply IH. intros x Hx. apply H. now right.
      + intros H x [<-|Hx] X; [exact E2|]. apply IH; [lia|assumption|assumption].
      + intros H. apply IH. intros x Hx. apply H. now right. }
  rewrite <- E. unfold err_rms. destruct (cells_expl ps); split; intros; congruence.
Qed.
(** With explicitly solved cells the system error is the root mean square of the errors of the
    cells; it is below 1 if the error of every cell is. *)
Theorem C113_rms : forall es m, es <> [] ->
  err_rms (fold_right Rplus 0 (map (fun e => e ^ 2) es)) (length es) = Some m ->
  0 <= m /\ INR (length es) * m ^ 2 = fold_right Rplus 0 (map (fun e => e ^ 2) es) /\
  ((forall e, In e es -> Rabs e < 1) -> m < 1).
Proof.
  intros es m Hne E.
  assert (Hn : 0 < INR (length es)) by (apply lt_0_INR; destruct es; [congruence|cbn; lia]).
  assert (P : 0 <= fold_right Rplus 0 (map (fun e => e ^ 2) es)).
  { clear. induction es as [|a es IH]; cbn [map fold_right]; [lra|]. pose proof (pow2_ge_0 a). lra. }
  set (S := fold_right Rplus 0 (map (fun e => e ^ 2) es)) in *.
  assert (M : m = sqrt (S / INR (length es))).
  { unfold err_rms in E. destruct (length es) eqn:L; [destruct es; [congruence|discriminate]|].
    injection E as <-. reflexivity. }
  assert (Q : 0 <= S / INR (length es))
    by (apply Rmult_le_pos; [exact P|left; apply Rinv_0_lt_compat; exact Hn]).
  rewrite M. split; [apply sqrt_pos|]. split.
  - replace (sqrt (S / INR (length es)) ^ 2) with (sqrt (S / INR (length es)) * sqrt (S / INR (length es))) by ring.
    rewrite sqrt_sqrt by exact Q. field. lra.
  - intros B. rewrite <- sqrt_1. apply sqrt_lt_1_alt. split; [exact Q|].
    apply Rmult_lt_reg_r with (INR (length es)); [exact Hn|].
    replace (S / INR (length es) * INR (length es)) with S by (field; lra). rewrite Rmult_1_l.
    unfold S. clear - B Hne. induction es as [|a es IH]; [congruence|].
    cbn [map fold_right]. change (length (a :: es)) with (Datatypes.S (length es)). rewrite S_INR.
    pose proof (B a (or_introl eq_refl)) as A. apply Rabs_def2 in A. assert (a ^ 2 < 1) by nra.
    destruct es as [|b es]; [cbn; lra|].
    specialize (IH ltac:(discriminate) (fun e H => B e (or_intror H))). lra.
Qed.
Print Assumptions C113_rms.
Example C113_example :
  err_rms 0 (cells_expl [Build_cpart false true 1; Build_cpart true false 20]) = None /\
  err_rms 5 (cells_expl [Build_cpart true true 4; Build_cpart true true 1; Build_cpart true false 20]) = Some 1.
Proof.
  split; [reflexivity|]. cbn [cells_expl fold_left cp_numeric cp_explicit cp_gp andb err_rms Nat.add].
  f_equal. replace (5 / INR 5) with 1 by (cbn; field). apply sqrt_1.
Qed.
Print Assumptions C113_no_explicit_refuted.

(** ** C114: the Newton solver for implicit steps *)
(** Its residual is zero for a solution of the implicit step. *)
Definition vsolves (m : nat) (d : vgrid -> vgrid) (y yp : vgrid) (h : R) : Prop :=
  forall k, (k < m)%nat -> y k = yp k + h * d y k.
(** It always ends after at most two passes, but with the explicit Euler step mirrored at the old
    temperature: cells which should get warmer get colder and vice versa. *)
Theorem C114_mirrored_refuted : forall fuel m d h rtol yp, 0 <= rtol ->
  imp_newt (S (S fuel)) m d h rtol yp <> NFuel /\
  forall y, imp_newt (S (S fuel)) m d h rtol yp = NDone y -> forall k, (k < m)%nat ->
  let euler := fun j => yp j + h * d yp j in
  (d euler k = d yp k -> y k = euler k) /\
  (h <> 0 -> d yp k <> 0 -> d euler k <> d yp k -> y k = yp k - h * d yp k).
Proof.
  intros fuel m d h rtol yp Hr. split; [now apply newt_fuel|].
  intros y E k Hk euler. destruct (newt_result _ _ _ _ _ _ _ Hr E) as (z & Z & V).
  destruct (newt_first_val m d h yp z Z k Hk) as [A B]. fold euler in A, B. rewrite V by exact Hk.
  split.
  - intros Q. apply A.
    change (yp k + h * d yp k - yp k - h * d euler k = 0). rewrite Q. ring.
  - intros Hh Hd Q. apply B; [|now apply Rmult_integral_contrapositive_currified].
    intro X. change (yp k + h * d yp k - yp k - h * d euler k = 0) in X. apply Q. apply Rmult_eq_reg_l with h; [|exact Hh]. lra.
Qed.
(** A cell relaxing to [a]: the result is further away from [a] than the old temperature,
    whatever the step; the exact solution lies between them. *)
Theorem C114_wrong_way_refuted : forall fuel rtol k h a T0, 0 <= rtol -> 0 < k -> 0 < h -> T0 <> a ->
  let d := fun (y : vgrid) (j : nat) => k * (a - y j) in
  exists y x, imp_newt (S (S fuel)) 1 d h rtol (fun _ => T0) = NDone y /\
    vsolves 1 d (fun _ => x) (fun _ => T0) h /\
    Rabs (x - a) < Rabs (T0 - a) < Rabs (y 0%nat - a).
Proof.
  intros fuel rtol k h a T0 Hr Hk Hh N d.
  assert (KH : 0 < k * h) by (apply Rmult_lt_0_compat; assumption).
  set (e := h * (k * (a - T0))).
  assert (He : e <> 0).
  { unfold e. apply Rmult_integral_contrapositive_currified; [lra|].
    apply Rmult_integral_contrapositive_currified; lra. }
  assert (Z : exists z, newt_first 1 d h (fun _ => T0) = Some z /\ z 0%nat = T0 - e).
  { unfold newt_first, newt_pass. cbn [all_num]. unfold newt_cell.
    set (F := T0 + h * d (fun _ => T0) 0%nat - T0 - h * d (fun j => T0 + h * d (fun _ => T0) j) 0%nat).
    assert (EF : F = (k * h) * e) by (unfold F, d, e; ring).
    assert (FN : F <> 0) by (rewrite EF; apply Rmult_integral_contrapositive_currified; lra).
    destruct (Req_EM_T F 0) as [Q|_]; [contradiction|].
    destruct (Req_EM_T (T0 + h * d (fun _ => T0) 0%nat) T0) as [Q|Q].
    { exfalso. apply He. unfold e. unfold d in Q. lra. }
    eexists. split; [reflexivity|]. cbn [Nat.eqb].
    change (h * d (fun _ => T0) 0%nat) with e. rewrite Rminus_0_r. field. split; [lra|exact FN]. }
  destruct Z as (z & Z & Z0).
  assert (Y : exists y, imp_newt (S (S fuel)) 1 d h rtol (fun _ => T0) = NDone y).
  { unfold imp_newt. cbn [newt_loop].
    change (all_num 1 (newt_pass 1 d h (fun _ => T0) (fun k0 => T0 + h * d (fun _ => T0) k0) (fun _ => T0) (fun _ => 0)))
      with (newt_first 1 d h (fun _ => T0)). rewrite Z.
    destruct (newt_go 1 rtol z (fun _ => T0)); [|now exists z].
    unfold newt_pass at 1. cbn [all_num]. unfold newt_cell.
    set (f2 := z 0%nat - T0 - h * d z 0%nat).
    set (f1 := T0 + h * d (fun _ => T0) 0%nat - T0 - h * d (fun j => T0 + h * d (fun _ => T0) j) 0%nat).
    assert (E1 : f1 = k * h * e) by (unfold f1, d, e; ring).
    assert (E2 : f2 = - (2 + k * h) * e) by (unfold f2, d; rewrite Z0; unfold e; ring).
    destruct (Req_EM_T f2 0) as [Q|Q].
    { exfalso. rewrite E2 in Q. apply Rmult_integral in Q. destruct Q; [lra|contradiction]. }
    destruct (Req_EM_T (z 0%nat) (z 0%nat)) as [_|X]; [|contradiction].
    destruct (Req_EM_T f2 f1) as [X|_].
    { exfalso. rewrite E1, E2 in X. assert ((2 + 2 * (k * h)) * e = 0) by lra.
      apply Rmult_integral in H. destruct H; [lra|contradiction]. }
    rewrite newt_stop; [eexists; reflexivity|exact Hr|].
    intros j Hj. replace j with 0%nat by lia. reflexivity. }
  destruct Y as (y & Y). exists y, (a + (T0 - a) / (1 + k * h)). split; [exact Y|].
  destruct (newt_result _ _ _ _ _ _ _ Hr Y) as (z' & Z' & V). rewrite Z in Z'. injection Z' as <-.
  rewrite (V 0%nat ltac:(lia)), Z0. split; [intros j _; unfold d; field; lra|].
  replace (a + (T0 - a) / (1 + k * h) - a) with ((T0 - a) * / (1 + k * h)) by (field; lra).
  replace (T0 - e - a) with ((T0 - a) * (1 + k * h)) by (unfold e; ring).
  rewrite !Rabs_mult. assert (P : 0 < Rabs (T0 - a)) by (apply Rabs_pos_lt; lra).
  assert (I : 0 < / (1 + k * h) < 1).
  { split; [apply Rinv_0_lt_compat; lra|]. rewrite <- Rinv_1. apply Rinv_lt_contravar; lra. }
  rewrite (Rabs_right (/ (1 + k * h))), (Rabs_right (1 + k * h)) by lra. split; nra.
Qed.
Print Assumptions C114_mirrored_refuted.
Print Assumptions C114_wrong_way_refuted.
