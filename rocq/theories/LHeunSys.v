From Coq Require Import Reals List Arith Lia Lra Psatz.
From Coquelicot Require Import Coquelicot.
From Verif Require Import MSolver MHeun SHeun LHeun LHeunOrder LHeunTol SHeunSys.
Import ListNotations.
Open Scope R_scope.

(** Ports. *)
Lemma upd_length i x : forall a, length (upd i x a) = length a.
Proof.
  intros a; revert i. induction a as [|y a IH]; intros [|i]; cbn; auto.
Qed.

Lemma upd_nth i x k : forall a, (i < length a)%nat ->
  nth k (upd i x a) 0 = if Nat.eqb k i then x else nth k a 0.
Proof.
  intros a; revert i k. induction a as [|y a IH]; intros i k H; [cbn in H; lia|].
  destruct i as [|i], k as [|k]; cbn; auto. apply IH. cbn in H; lia.
Qed.

Lemma update_ports_length ps E N I : forall ports,
  length (update_ports ps E N I ports) = length ports.
Proof.
  unfold update_ports. induction ps as [|[k s] ps IH]; intros ports; cbn; auto.
  rewrite IH. apply upd_length.
Qed.

Lemma update_ports_other ps E N I k : ~ In k (map fst ps) ->
  forall ports, (forall j, In j (map fst ps) -> (j < length ports)%nat) ->
  nth k (update_ports ps E N I ports) 0 = nth k ports 0.
Proof.
  unfold update_ports. induction ps as [|[j s] ps IH]; intros Hk ports Hr; cbn; auto.
  cbn in Hk, Hr. rewrite IH.
  - rewrite upd_nth by (apply Hr; auto). destruct (Nat.eqb_spec k j); auto.
    subst. exfalso; auto.
  - auto.
  - intros i Hi. rewrite upd_length. apply Hr. auto.
Qed.

Lemma update_ports_hit ps E N I k p c : NoDup (map fst ps) -> In (k, SrcE p c) ps ->
  forall ports, (forall j, In j (map fst ps) -> (j < length ports)%nat) ->
  nth k (update_ports ps E N I ports) 0 = getv E p c.
Proof.
  unfold update_ports. induction ps as [|[j s] ps IH]; intros Hn Hk ports Hr; [contradiction|].
  cbn in Hn. inversion Hn as [|x l Hnj Hn']; subst. cbn.
  destruct Hk as [Hk|Hk].
  - inversion Hk; subst; clear Hk.
    fold (update_ports ps E N I (upd k (getv E p c) ports)).
    rewrite update_ports_other; auto.
    + rewrite upd_nth by (apply Hr; left; reflexivity). rewrite Nat.eqb_refl. reflexivity.
    + intros i Hi. rewrite upd_length. apply Hr. cbn; auto.
  - apply IH; auto. intros i Hi. rewrite upd_length. apply Hr. cbn; auto.
Qed.

(** Ports all of whose sources are explicit parts. *)
Definition all_e (ps : list (nat * src)) : Prop :=
  forall k s, In (k, s) ps -> exists p c, s = SrcE p c.

Lemma ports_of_eq ps fixed P ports E N I :
  ports_of ps fixed P -> NoDup (map fst ps) -> all_e ps ->
  (forall j, In j (map fst ps) -> (j < length fixed)%nat) ->
  length ports = length fixed ->
  (forall k, ~ In k (map fst ps) -> nth k ports 0 = nth k fixed 0) ->
  update_ports ps E N I ports = P E.
Proof.
  intros HP Hn He Hr Hl Hf. destruct (HP E) as (P1&P2&P3).
  apply nth_ext with 0 0.
  - rewrite update_ports_length. congruence.
  - intros k _. destruct (in_dec Nat.eq_dec k (map fst ps)) as [Hk|Hk].
    + apply in_map_iff in Hk. destruct Hk as [[k' s] [E1 E2]]. cbn in E1; subst k'.
      destruct (He _ _ E2) as [p [c ->]].
      rewrite (update_ports_hit _ _ _ _ _ p c); auto.
      * symmetry. apply P2. exact E2.
      * intros j Hj. rewrite Hl. auto.
    + rewrite update_ports_other; auto.
      * rewrite P3 by exact Hk. auto.
      * intros j Hj. rewrite Hl. auto.
Qed.

(** Rows. *)
Lemma shape_len shape V : has_shape shape V -> length V = length shape.
Proof. intros H. unfold has_shape in H. subst. rewrite map_length. reflexivity. Qed.

Lemma shape_nth shape V p : has_shape shape V -> length (nth p V []) = nth p shape 0%nat.
Proof.
  intros H. unfold has_shape in H. subst shape.
  rewrite <- (map_nth (@length R)). reflexivity.
Qed.

Lemma shape_ext shape V : length V = length shape ->
  (forall p, (p < length shape)%nat -> length (nth p V []) = nth p shape 0%nat) ->
  has_shape shape V.
Proof.
  intros H1 H2. unfold has_shape. apply nth_ext with 0%nat 0%nat.
  - rewrite map_length. exact H1.
  - intros p Hp. rewrite map_length in Hp.
    rewrite <- H2 by lia. rewrite <- (map_nth (@length R)). reflexivity.
Qed.

Lemma cell_in shape p c : cell shape p c -> (p < length shape)%nat.
Proof.
  unfold cell. intros H. destruct (le_lt_dec (length shape) p) as [L|L]; [|exact L].
  rewrite nth_overflow in H by exact L. lia.
Qed.

Section Sys.
Variable shape : list nat.
Variable F : list vec -> list vec.
Hypothesis Fshape : forall V, has_shape shape V -> has_shape shape (F V).

Definition eulerS (h : R) (V : list vec) : list vec :=
  map (fun yd => euler h (fst yd) (snd yd)) (combine V (F V)).
Definition heunS (h : R) (V : list vec) : list vec :=
  map (fun yd => heun h (fst yd) (fst (snd yd)) (snd (snd yd)))
      (combine V (combine (F V) (F (eulerS h V)))).

Lemma eulerS_shape h V : has_shape shape V -> has_shape shape (eulerS h V).
Proof.
  intros H. pose proof (Fshape V H) as HF.
  pose proof (shape_len _ _ H) as L1. pose proof (shape_len _ _ HF) as L2.
  apply shape_ext; unfold eulerS.
  - rewrite map_length, combine_length. lia.
  - intros p Hp. rewrite (@nth_map_combine vec vec vec _ _ _ _ [] [] []) by lia. cbn [fst snd].
    rewrite euler_length; rewrite !(shape_nth shape); auto.
Qed.

Lemma eulerS_get h V p c : has_shape shape V -> cell shape p c ->
  getv (eulerS h V) p c = getv V p c + h * getv (F V) p c.
Proof.
  intros H Hc. pose proof (Fshape V H) as HF. pose proof (cell_in _ _ _ Hc) as Hp.
  pose proof (shape_len _ _ H) as L1. pose proof (shape_len _ _ HF) as L2.
  unfold getv, eulerS. rewrite (@nth_map_combine vec vec vec _ _ _ _ [] [] []) by lia. cbn [fst snd].
  apply euler_nth; rewrite !(shape_nth shape); auto.
Qed.

Lemma heunS_lens h V : has_shape shape V ->
  length V = length shape /\ length (F V) = length shape /\
  length (F (eulerS h V)) = length shape /\
  length (combine (F V) (F (eulerS h V))) = length shape.
Proof.
  intros H. pose proof (Fshape V H) as HF. pose proof (Fshape _ (eulerS_shape h V H)) as HE.
  pose proof (shape_len _ _ H) as L1. pose proof (shape_len _ _ HF) as L2.
  pose proof (shape_len _ _ HE) as L3. rewrite combine_length. lia.
Qed.

Lemma heunS_shape h V : has_shape shape V -> has_shape shape (heunS h V).
Proof.
  intros H. destruct (heunS_lens h V H) as (L1&L2&L3&L4).
  pose proof (Fshape V H) as HF. pose proof (Fshape _ (eulerS_shape h V H)) as HE.
  apply shape_ext; unfold heunS.
  - rewrite map_length, combine_length. lia.
  - intros p Hp. rewrite (@nth_map_combine vec (vec*vec) vec _ _ _ _ [] ([],[]) []) by lia.
    rewrite (@combine_nth vec vec) by (rewrite L2, L3; reflexivity). cbn [fst snd].
    unfold heun, vadd. rewrite vmap2_length; rewrite ?vscale_length, ?vmap2_length;
      rewrite !(shape_nth shape); auto.
Qed.

Lemma heunS_get h V p c : has_shape shape V -> cell shape p c ->
  getv (heunS h V) p c
  = getv V p c + h / 2 * (getv (F V) p c + getv (F (eulerS h V)) p c).
Proof.
  intros H Hc. destruct (heunS_lens h V H) as (L1&L2&L3&L4).
  pose proof (cell_in _ _ _ Hc) as Hp.
  pose proof (Fshape V H) as HF. pose proof (Fshape _ (eulerS_shape h V H)) as HE.
  unfold getv, heunS. rewrite (@nth_map_combine vec (vec*vec) vec _ _ _ _ [] ([],[]) []) by lia.
  rewrite (@combine_nth vec vec) by (rewrite L2, L3; reflexivity). cbn [fst snd].
  apply heun_nth; rewrite !(shape_nth shape); auto.
Qed.

Section Err.
Variables (L : R).
Hypothesis HL : 0 <= L.
Hypothesis Hlip : lipschitz shape F L.

(** Propagation of a difference over one step. *)
Lemma heunS_stable h V W B : 0 <= h -> 0 <= B ->
  has_shape shape V -> has_shape shape W -> within shape V W B ->
  within shape (heunS h V) (heunS h W) (exp (L * h) * B).
Proof.
  intros Hh HB HV HW Hd p c Hc.
  rewrite !heunS_get by assumption.
  pose proof (Hlip _ _ _ HV HW Hd) as D0.
  assert (De : within shape (eulerS h V) (eulerS h W) ((1 + h * L) * B)).
  { intros q d Hq. rewrite !eulerS_get by assumption.
    specialize (Hd q d Hq). specialize (D0 q d Hq).
    replace (getv V q d + h * getv (F V) q d - (getv W q d + h * getv (F W) q d))
      with ((getv V q d - getv W q d) + h * (getv (F V) q d - getv (F W) q d)) by ring.
    eapply Rle_trans; [apply Rabs_triang|]. rewrite Rabs_mult, (Rabs_right h) by lra.
    assert (h * Rabs (getv (F V) q d - getv (F W) q d) <= h * (L * B))
      by (apply Rmult_le_compat_l; assumption).
    nra. }
  pose proof (Hlip _ _ _ (eulerS_shape h V HV) (eulerS_shape h W HW) De p c Hc) as D1.
  specialize (D0 p c Hc). specialize (Hd p c Hc).
  set (a := getv V p c) in *. set (a' := getv W p c) in *.
  set (b := getv (F V) p c) in *. set (b' := getv (F W) p c) in *.
  set (d := getv (F (eulerS h V)) p c) in *. set (d' := getv (F (eulerS h W)) p c) in *.
  replace (a + h / 2 * (b + d) - (a' + h / 2 * (b' + d')))
    with ((a - a') + (h / 2 * (b - b') + h / 2 * (d - d'))) by field.
  eapply Rle_trans; [apply Rabs_triang|].
  eapply Rle_trans; [apply Rplus_le_compat_l, Rabs_triang|].
  rewrite !Rabs_mult, (Rabs_right (h / 2)) by lra.
  assert (h / 2 * Rabs (b - b') <= h / 2 * (L * B)) by (apply Rmult_le_compat_l; lra).
  assert (h / 2 * Rabs (d - d') <= h / 2 * (L * ((1 + h * L) * B)))
    by (apply Rmult_le_compat_l; lra).
  assert (E : 1 + L * h + (L * h) ^ 2 / 2 <= exp (L * h)).
  { assert (0 <= L * h) by nra.
    pose proof (exp_ge_taylor (L * h) 2 H1) as T. cbn [sum_f_R0 fact] in T.
    replace (INR 1) with 1 in T by reflexivity.
    replace (INR (1*1)) with 1 in T by reflexivity.
    replace (INR (2*1)) with 2 in T by (cbn; ring).
    cbn [pow] in *. cbn in T. lra. }
  assert ((1 + L * h + (L * h) ^ 2 / 2) * B <= exp (L * h) * B)
    by (apply Rmult_le_compat_r; assumption).
  cbn [pow] in *. nra.
Qed.

(** Local error. *)
Variables (Y : R -> list vec) (M2 M3 : R).

Definition solves (a b : R) : Prop :=
  (forall s, has_shape shape (Y s)) /\
  forall p c s, cell shape p c -> a <= s <= b ->
  Derive (fun t => getv (Y t) p c) s = getv (F (Y s)) p c /\
  (forall k, (k <= 3)%nat -> ex_derive_n (fun t => getv (Y t) p c) k s) /\
  Rabs (Derive_n (fun t => getv (Y t) p c) 2 s) <= M2 /\
  Rabs (Derive_n (fun t => getv (Y t) p c) 3 s) <= M3.

Lemma heunS_local t h : 0 < h -> solves t (t + h) ->
  within shape (Y (t + h)) (heunS h (Y t)) (h ^ 3 * (5 / 12 * M3 + L * M2 / 4)).
Proof.
  intros Hh [HS Hsol] p c Hc.
  rewrite heunS_get by auto.
  assert (Ht : t <= t <= t + h) by lra. assert (Hth : t <= t + h <= t + h) by lra.
  destruct (Hsol p c t Hc Ht) as [Ed0 _].
  destruct (Hsol p c (t + h) Hc Hth) as [Ed1 _].
  pose (y := fun t => getv (Y t) p c).
  assert (T1 : Rabs (y (t + h) - y t - h / 2 * (Derive y t + Derive y (t + h)))
               <= h ^ 3 * (5 / 12) * M3).
  { apply trapez; auto.
    - intros s Hs k Hk. destruct (Hsol p c s Hc Hs) as (_&A&_). apply A; exact Hk.
    - intros s Hs. destruct (Hsol p c s Hc Hs) as (_&_&_&A). exact A. }
  assert (T2 : within shape (F (Y (t + h))) (F (eulerS h (Y t))) (L * (h ^ 2 / 2 * M2))).
  { apply Hlip; auto using eulerS_shape.
    intros q d Hq. rewrite eulerS_get by auto.
    destruct (Hsol q d t Hq Ht) as [Ej _]. rewrite <- Ej.
    apply (taylor1 (fun t => getv (Y t) q d)); auto.
    - intros s Hs k Hk. destruct (Hsol q d s Hq Hs) as (_&A&_). apply A; lia.
    - intros s Hs. destruct (Hsol q d s Hq Hs) as (_&_&A&_). exact A. }
  specialize (T2 p c Hc).
  fold y in Ed0, Ed1. rewrite Ed0, Ed1 in T1. unfold y in T1. cbv beta in T1.
  set (a := getv (Y (t + h)) p c) in *. set (b := getv (F (Y t)) p c) in *.
  set (e := getv (F (Y (t + h))) p c) in *.
  set (d := getv (F (eulerS h (Y t))) p c) in *. set (a0 := getv (Y t) p c) in *.
  replace (a - (a0 + h / 2 * (b + d)))
    with ((a - a0 - h / 2 * (b + e)) + h / 2 * (e - d)) by field.
  eapply Rle_trans; [apply Rabs_triang|].
  rewrite (Rabs_mult (h / 2)), (Rabs_right (h / 2)) by lra.
  assert (h / 2 * Rabs (e - d) <= h / 2 * (L * (h ^ 2 / 2 * M2)))
    by (apply Rmult_le_compat_l; lra).
  cbn [pow] in *. nra.
Qed.

(** One step started off the exact solution by [B]. *)
Lemma heunS_step t h V B : 0 < h -> 0 <= B -> has_shape shape V ->
  solves t (t + h) -> within shape (Y t) V B ->
  within shape (Y (t + h)) (heunS h V)
    (exp (L * h) * B + h ^ 3 * (5 / 12 * M3 + L * M2 / 4)).
Proof.
  intros Hh HB HV HS Hd p c Hc.
  pose proof (heunS_local t h Hh HS p c Hc) as A.
  pose proof (heunS_stable h (Y t) V B ltac:(lra) HB (proj1 HS t) HV Hd p c Hc) as C.
  set (x := getv (Y (t + h)) p c) in *. set (z := getv (heunS h (Y t)) p c) in *.
  set (w := getv (heunS h V) p c) in *.
  replace (x - w) with ((x - z) + (z - w)) by ring.
  eapply Rle_trans; [apply Rabs_triang|]. lra.
Qed.
End Err.
End Sys.

(** The solver computes [heunS] of the coupled system. *)
Section Code.
Context {Buf : Type}.
Variables (mo : model Buf) (c : cfg) (gs : list (vec -> vec -> vec)).
Variables (fixed : vec) (P : list vec -> vec) (shape : list nat).

(** What is asked of the modelled system: only explicit parts, each with a slope depending on
    ports and own temperatures only; port targets distinct and existing. *)
Record coupled : Prop := {
  cp_n : mo_n mo = []; cp_i : mo_i mo = [];
  cp_g : Forall2 pure_part (mo_e mo) (map (fun g (_ : R) => g) gs);
  cp_ports : ports_of (mo_ports mo) fixed P;
  cp_nodup : NoDup (map fst (mo_ports mo));
  cp_src : all_e (mo_ports mo);
  cp_rng : forall j, In j (map fst (mo_ports mo)) -> (j < length fixed)%nat;
  cp_len : length gs = length shape;
  cp_shape : forall V, has_shape shape V -> has_shape shape (rhs gs P V)
}.

(** The ports hold what they are connected to. *)
Definition ready (m : mem Buf) : Prop :=
  shaped mo m /\ has_shape shape (m_prevE m) /\ m_ports m = P (m_prevE m).

Hypothesis HC : coupled.

Lemma map_slopes h p V :
  map (fun fy => fst fy h p (snd fy)) (combine (map (fun g (_ : R) => g) gs) V)
  = map (fun gv : (vec -> vec -> vec) * vec => fst gv p (snd gv)) (combine gs V).
Proof.
  revert V. induction gs as [|g l IH]; intros [|v V]; cbn; auto. f_equal. apply IH.
Qed.

Lemma upd_P (E V : list vec) : update_ports (mo_ports mo) E [] [] (P V) = P E.
Proof.
  destruct (cp_ports HC V) as (A&_&B).
  apply ports_of_eq with fixed; try apply HC; auto.
Qed.

Lemma attempt_shape fuel m s u m' s' : ready m ->
  heun_adaptive mo c fuel m s = FAccepted u m' s' ->
  m_resE m' = heunS (rhs gs P) u (m_prevE m) /\ m_ports m' = P (m_resE m') /\
  shaped mo m' /\ m_ires m' = [].
Proof.
  intros (Hs&Hsh&Hp) H.
  pose proof (heun_adaptive_clean mo c _ fuel m s u m' s' (cp_g HC) Hs H) as [A [A2 A3]].
  rewrite (cp_n HC), (cp_i HC) in A. unfold clean_step in A. cbn [map combine] in A.
  rewrite !map_slopes in A. rewrite Hp in A. fold (rhs gs P (m_prevE m)) in A.
  fold (eulerS (rhs gs P) u (m_prevE m)) in A.
  rewrite !upd_P in A. fold (rhs gs P (eulerS (rhs gs P) u (m_prevE m))) in A.
  fold (heunS (rhs gs P) u (m_prevE m)) in A.
  inversion A as [[B1 B2 B3 B4]].
  split; [auto|]. split; [auto|]. split; [|auto].
  assert (S : forall fuel m s, shaped mo m -> full_loop mo c fuel m s = FAccepted u m' s' ->
              shaped mo m').
  { induction fuel0 as [|f IH]; intros m0 s0 S0 H0; cbn in H0; [discriminate|].
    destruct (num_attempt mo (s_h s0) m0) as [m1 o] eqn:EN.
    pose proof (num_attempt_shaped _ _ _ _ _ S0 EN) as (N1&_).
    destruct (attempt c s0 o); [| |discriminate].
    - inversion H0; subst; exact N1.
    - apply IH in H0; [exact H0|]. exact N1. }
  unfold heun_adaptive in H. apply S in H; [exact H|]. exact Hs.
Qed.

Lemma ready_next fuel m s u m' s' : ready m ->
  heun_adaptive mo c fuel m s = FAccepted u m' s' -> ready (next m').
Proof.
  intros Hr H. destruct (attempt_shape _ _ _ _ _ _ Hr H) as (A&B&C&D).
  destruct Hr as (R1&R2&R3). unfold ready, next; cbn [m_prevE m_ports].
  split; [|split].
  - destruct C as (S1&S2&S3&S4&S5&S6&S7). unfold shaped; cbn. rewrite D, (cp_i HC).
    repeat split; auto.
  - rewrite A. apply heunS_shape; [|exact R2]. apply HC.
  - exact B.
Qed.

Section Global.
Variables (L M2 M3 : R) (Y : R -> list vec).
Hypothesis HL : 0 <= L.
Hypothesis HM2 : 0 <= M2.
Hypothesis HM3 : 0 <= M3.
Hypothesis Hlip : lipschitz shape (rhs gs P) L.

Lemma step_error fuel m s u m' s' t B : ready m -> 0 < u -> 0 <= B ->
  heun_adaptive mo c fuel m s = FAccepted u m' s' ->
  solves shape (rhs gs P) Y M2 M3 t (t + u) ->
  within shape (Y t) (m_prevE m) B ->
  within shape (Y (t + u)) (m_resE m')
    (exp (L * u) * B + u ^ 3 * (5 / 12 * M3 + L * M2 / 4)).
Proof.
  intros Hr Hu HB H HS Hd. destruct (attempt_shape _ _ _ _ _ _ Hr H) as (A&_).
  rewrite A. apply heunS_step; auto; [apply HC|]. apply Hr.
Qed.

Lemma accepted_pos hmax m s T m' s' : accepted mo c hmax m s T m' s' -> 0 <= T.
Proof. induction 1; lra. Qed.

Lemma solves_sub a b a' b' : a <= a' -> b' <= b ->
  solves shape (rhs gs P) Y M2 M3 a b -> solves shape (rhs gs P) Y M2 M3 a' b'.
Proof. intros H1 H2 [A B]. split; auto. intros p q s Hp Hs. apply B; auto; lra. Qed.

Lemma global_error hmax m s T m' s' : accepted mo c hmax m s T m' s' ->
  forall t B, ready m -> 0 <= B ->
  solves shape (rhs gs P) Y M2 M3 t (t + T) ->
  within shape (Y t) (m_prevE m) B ->
  within shape (Y (t + T)) (m_prevE m')
    (exp (L * T) * (B + T * (hmax ^ 2 * (5 / 12 * M3 + L * M2 / 4)))).
Proof.
  set (K := 5 / 12 * M3 + L * M2 / 4).
  assert (HK : 0 <= K) by (unfold K; nra).
  induction 1 as [m s|m s fuel u m1 s1 T m2 s2 H Hu Hacc IH]; intros t B Hr HB HS Hd.
  - intros p q Hc. rewrite Rplus_0_r. rewrite Rmult_0_r, exp_0.
    specialize (Hd p q Hc). lra.
  - pose proof (accepted_pos _ _ _ _ _ _ Hacc) as HT.
    assert (D1 : within shape (Y (t + u)) (m_resE m1) (exp (L * u) * B + u ^ 3 * K)).
    { apply (step_error fuel m s u m1 s1 t B); auto; try lra.
      apply (solves_sub t (t + (u + T))); auto; lra. }
    assert (Hu3 : 0 <= u ^ 3 * K) by (apply Rmult_le_pos; [apply pow_le; lra|exact HK]).
    pose proof (exp_pos (L * u)) as Ep.
    assert (HB1 : 0 <= exp (L * u) * B + u ^ 3 * K) by nra.
    pose proof (IH (t + u) _ (ready_next _ _ _ _ _ _ Hr H) HB1) as D2.
    replace (t + u + T) with (t + (u + T)) in D2 by ring.
    specialize (D2 (solves_sub t (t + (u + T)) (t + u) (t + (u + T)) ltac:(lra) ltac:(lra) HS)).
    specialize (D2 D1). intros p q Hc. specialize (D2 p q Hc).
    eapply Rle_trans; [exact D2|].
    replace (L * (u + T)) with (L * T + L * u) by ring. rewrite exp_plus.
    rewrite Rmult_assoc. apply Rmult_le_compat_l; [left; apply exp_pos|].
    assert (E1 : 1 <= exp (L * u)).
    { rewrite <- exp_0. destruct (Req_dec (L * u) 0) as [->|Hne]; [lra|].
      left. apply exp_increasing. nra. }
    set (G := hmax ^ 2 * K).
    assert (HG : 0 <= G) by (unfold G; apply Rmult_le_pos; [apply pow_le; lra|exact HK]).
    assert (U3 : u ^ 3 * K <= u * G).
    { unfold G. replace (u ^ 3 * K) with (u * (u ^ 2 * K)) by ring.
      apply Rmult_le_compat_l; [lra|]. apply Rmult_le_compat_r; [exact HK|].
      apply pow_incr. lra. }
    assert (0 <= u * G) by (apply Rmult_le_pos; lra).
    assert (0 <= T * G) by (apply Rmult_le_pos; lra).
    assert (u * G + T * G <= exp (L * u) * (u * G + T * G)) by nra.
    nra.
Qed.
End Global.
End Code.

(** One part relaxing linearly, among arbitrary other parts. *)
Lemma relax_step {Buf} (mo : model Buf) c fs fuel m s u m' s' p df a Tinf i :
  Forall2 pure_part (mo_e mo) fs -> shaped mo m ->
  heun_adaptive mo c fuel m s = FAccepted u m' s' ->
  (p < length (mo_e mo))%nat -> nth p fs df = (fun _ _ T => relax a Tinf T) ->
  (i < length (nth p (m_prevE m) []))%nat ->
  getv (m_resE m') p i - Tinf
  = (1 - a * u + (a * u) ^ 2 / 2) * (getv (m_prevE m) p i - Tinf).
Proof.
  intros Hp Hs H Hpp Hf Hi.
  pose proof (heun_adaptive_clean mo c fs fuel m s u m' s' Hp Hs H) as [A _].
  pose proof Hs as (S1&_).
  assert (Lf : length fs = length (mo_e mo)) by (clear - Hp; induction Hp; cbn; congruence).
  unfold clean_step in A.
  set (s0 := map (fun fy : slope * vec => fst fy u (m_ports m) (snd fy))
                 (combine fs (m_prevE m))) in A.
  set (pr := map (fun yd : vec * vec => euler u (fst yd) (snd yd)) (combine (m_prevE m) s0)) in A.
  set (p1 := update_ports _ _ _ _ _) in A.
  set (s1 := map (fun fy : slope * vec => fst fy u p1 (snd fy)) (combine fs pr)) in A.
  assert (E : m_resE m' = map (fun yd : vec * (vec * vec) =>
     heun u (fst yd) (fst (snd yd)) (snd (snd yd))) (combine (m_prevE m) (combine s0 s1)))
    by (inversion A; reflexivity).
  assert (L0 : length s0 = length (mo_e mo))
    by (unfold s0; rewrite map_length, combine_length, Lf, S1; apply Nat.min_id).
  assert (Lp : length pr = length (mo_e mo))
    by (unfold pr; rewrite map_length, combine_length, L0, S1; apply Nat.min_id).
  assert (L1 : length s1 = length (mo_e mo))
    by (unfold s1; rewrite map_length, combine_length, Lf, Lp; apply Nat.min_id).
  assert (Lc : length (combine s0 s1) = length (mo_e mo))
    by (rewrite combine_length, L0, L1; apply Nat.min_id).
  assert (E0 : nth p s0 [] = relax a Tinf (nth p (m_prevE m) [])).
  { unfold s0. rewrite (@nth_map_combine slope vec vec _ _ _ _ df [] []);
      [cbn [fst snd]; rewrite Hf; reflexivity|congruence|rewrite Lf; exact Hpp]. }
  assert (Ep : nth p pr [] = euler u (nth p (m_prevE m) []) (relax a Tinf (nth p (m_prevE m) []))).
  { unfold pr. rewrite (@nth_map_combine vec vec vec _ _ _ _ [] [] []);
      [cbn [fst snd]; rewrite E0; reflexivity|congruence|rewrite S1; exact Hpp]. }
  assert (E1 : nth p s1 [] = relax a Tinf (nth p pr [])).
  { unfold s1. rewrite (@nth_map_combine slope vec vec _ _ _ _ df [] []);
      [cbn [fst snd]; rewrite Hf; reflexivity|congruence|rewrite Lf; exact Hpp]. }
  unfold getv. rewrite E.
  rewrite (@nth_map_combine vec (vec * vec) vec _ _ _ _ [] ([],[]) []);
    [|congruence|rewrite S1; exact Hpp].
  rewrite (@combine_nth vec vec) by congruence. cbn [fst snd].
  rewrite E1, Ep, E0. apply heun_relax. exact Hi.
Qed.
