(** Concrete coupled system for C05 and C60: two single-cell parts exchanging heat through two
    ports, exact solution [50 +- 0.01 exp (-t)]. *)
From Coq Require Import Reals List Arith Lia Lra Psatz.
From Coquelicot Require Import Coquelicot.
From Verif Require Import MSolver LSolver MHeun SHeun LHeun LHeunOrder LHeunTol SHeunSys LHeunSys
  LHeunEx2.
Import ListNotations.
Open Scope R_scope.

Definition cg (k : nat) : vec -> vec -> vec :=
  fun ports T => [1 / 2 * (nth k ports 0 - nth 0 T 0)].
Definition cpart (k : nat) : epart unit :=
  mkEpart (fun _ ports T _ => (cg k ports T, None, tt)) [1].
Definition cmodel : model unit :=
  mkModel [cpart 0; cpart 1] [] [] [(0%nat, SrcE 1 0); (1%nat, SrcE 0 0)] 1e-3 1e-6 2.
Definition cP (V : list vec) : vec := [getv V 1 0; getv V 0 0].
Definition cY (t : R) : list vec := [[50 + 1 / 100 * exp (- t)]; [50 - 1 / 100 * exp (- t)]].
Definition cmem : mem unit :=
  mkMem [50 - 1 / 100; 50 + 1 / 100] [0; 0] [[50 + 1 / 100]; [50 - 1 / 100]] []
        [[0]; [0]] [[0]; [0]] [[0]; [0]] [tt; tt] [[0]; [0]] [] [] [] [].
Definition cshape : list nat := [1%nat; 1%nat].

Lemma c_coupled : coupled cmodel [cg 0; cg 1] [0; 0] cP cshape.
Proof.
  constructor; try reflexivity.
  - repeat constructor.
  - intros V. split; [reflexivity|]. split.
    + intros k p c [H|[H|[]]]; inversion H; reflexivity.
    + intros k H. cbn in H. destruct k as [|[|k]]; try (exfalso; auto; fail).
      destruct k; reflexivity.
  - cbn. repeat constructor; cbn; intuition discriminate.
  - intros k s [H|[H|[]]]; inversion H; eauto.
  - intros j [H|[H|[]]]; cbn in *; lia.
  - intros V H. unfold has_shape, rhs in *. destruct V as [|a [|b [|c V]]]; try discriminate.
    reflexivity.
Qed.

Lemma c_ready : ready cmodel cP cshape cmem.
Proof. split; [|split]; try reflexivity. unfold shaped; cbn. repeat split. Qed.

Lemma c_cells p c : cell cshape p c -> (p = 0%nat \/ p = 1%nat) /\ c = 0%nat.
Proof.
  unfold cell, cshape. destruct p as [|[|p]]; cbn; intros; try lia. destruct p; cbn in *; lia.
Qed.

Lemma c_rhs V : has_shape cshape V ->
  getv (rhs [cg 0; cg 1] cP V) 0 0 = 1 / 2 * (getv V 1 0 - getv V 0 0) /\
  getv (rhs [cg 0; cg 1] cP V) 1 0 = 1 / 2 * (getv V 0 0 - getv V 1 0).
Proof.
  unfold has_shape. destruct V as [|a [|b [|c V]]]; try discriminate.
  intros _. split; reflexivity.
Qed.

Lemma c_lip : lipschitz cshape (rhs [cg 0; cg 1] cP) 1.
Proof.
  intros V W B HV HW H p c Hc.
  pose proof (H 0%nat 0%nat ltac:(unfold cell; cbn; lia)) as A.
  pose proof (H 1%nat 0%nat ltac:(unfold cell; cbn; lia)) as D.
  destruct (c_rhs V HV) as [V0 V1]. destruct (c_rhs W HW) as [W0 W1].
  destruct (c_cells p c Hc) as [[->| ->] ->].
  - rewrite V0, W0. apply Rabs_le. apply Rabs_le_between in A. apply Rabs_le_between in D. lra.
  - rewrite V1, W1. apply Rabs_le. apply Rabs_le_between in A. apply Rabs_le_between in D. lra.
Qed.

Lemma c_dn (a : R) k s :
  is_derive_n (fun t => 50 + a * exp (- t)) (S k) s (a * (-1) ^ (S k) * exp (- s)).
Proof.
  revert s. induction k as [|k IH]; intros s.
  - cbn. auto_derive; trivial. ring.
  - cbn [is_derive_n]. apply (is_derive_ext (fun s => a * (-1) ^ (S k) * exp (- s))).
    + intros t. symmetry. apply is_derive_n_unique. apply IH.
    + cbn [pow]. auto_derive; trivial. ring.
Qed.

Lemma exp_neg_le s : 0 <= s -> 0 < exp (- s) <= 1.
Proof.
  intros H. split; [apply exp_pos|]. rewrite <- exp_0. destruct H as [H|<-].
  - left. apply exp_increasing. lra.
  - right. f_equal. ring.
Qed.

Lemma c_solves : solves cshape (rhs [cg 0; cg 1] cP) cY (1 / 100) (1 / 100) 0 (0 + 1).
Proof.
  split; [intros s; reflexivity|].
  assert (G : forall a f, (forall t, f t = 50 + a * exp (- t)) -> Rabs a = 1 / 100 ->
    forall s, 0 <= s <= 0 + 1 ->
    Derive f s = - a * exp (- s) /\ (forall k, (k <= 3)%nat -> ex_derive_n f k s) /\
    Rabs (Derive_n f 2 s) <= 1 / 100 /\ Rabs (Derive_n f 3 s) <= 1 / 100).
  { intros a f Hf Ha s Hs. destruct (exp_neg_le s ltac:(lra)) as [E1 E2].
    assert (D : forall k, Derive_n f (S k) s = a * (-1) ^ (S k) * exp (- s)).
    { intros k. rewrite (Derive_n_ext f _ (S k) s Hf). apply is_derive_n_unique, c_dn. }
    split; [|split; [|split]].
    - change (Derive f s) with (Derive_n f 1 s). rewrite D. cbn. ring.
    - intros n _. destruct n as [|n]; [exact I|].
      apply (ex_derive_n_ext (fun t => 50 + a * exp (- t)) f (S n) s); [intros; symmetry; apply Hf|].
      eexists. apply (c_dn a n s).
    - rewrite D. rewrite !Rabs_mult, Ha. rewrite (Rabs_right (exp (- s))) by lra.
      replace (Rabs ((-1) ^ 2)) with 1 by (cbn; rewrite Rabs_right; lra). lra.
    - rewrite D. rewrite !Rabs_mult, Ha. rewrite (Rabs_right (exp (- s))) by lra.
      replace (Rabs ((-1) ^ 3)) with 1 by (cbn; rewrite Rabs_left; lra). lra. }
  intros p c s Hc Hs. destruct (c_rhs (cY s) eq_refl) as [V0 V1].
  destruct (c_cells p c Hc) as [[->| ->] ->].
  - destruct (G (1/100) (fun t => getv (cY t) 0 0)) with (s := s) as (A&B); auto.
    + apply Rabs_right; lra.
    + split; [|exact B]. rewrite A, V0. cbn. lra.
  - destruct (G (-(1/100)) (fun t => getv (cY t) 1 0)) with (s := s) as (A&B); auto.
    + intros t. cbn. ring.
    + rewrite Rabs_left; lra.
    + split; [|exact B]. rewrite A, V1. cbn. lra.
Qed.

Lemma c_start : within cshape (cY 0) (m_prevE cmem) 0.
Proof.
  intros p c Hc. destruct (c_cells p c Hc) as [[->| ->] ->]; cbn; rewrite Ropp_0, exp_0;
    match goal with |- Rabs ?x <= _ => replace x with 0 by ring end; rewrite Rabs_R0; lra.
Qed.

(** The first attempt with step 1 is accepted. *)
Lemma c_accepted : exists m' s',
  heun_adaptive cmodel cfg_default 1 cmem (init_sst cfg_default) = FAccepted 1 m' s'.
Proof.
  unfold heun_adaptive, enter, init_sst. cbn [full_loop s_h].
  set (m0 := mkMem _ _ _ _ _ _ _ _ _ _ _ _ _).
  destruct (num_attempt cmodel 1 m0) as [m1 o] eqn:EN.
  assert (Ho : exists ds e, o = OStable ds e).
  { unfold num_attempt in EN. cbn in EN. inversion EN. eauto. }
  destruct Ho as (ds&e&->).
  assert (Hs : shaped cmodel m0) by (unfold shaped; cbn; repeat split).
  assert (E : exists k s', attempt cfg_default
     (mkSst 1 None (c_max_factor cfg_default) 1 0) (OStable ds e) = AAccept 1 k s').
  { apply (within_accepted cmodel cfg_default (map (fun g (_ : R) => g) [cg 0; cg 1])
       1 m0 m1 ds e _ (cpart 0) (fun _ => cg 0)); auto.
    - apply (cp_g _ _ _ _ _ c_coupled).
    - unfold num_attempt in EN. cbn in EN. inversion EN. cbn. ring.
    - cbn. lra.
    - assert (R1 : m_resE m1 = [[50 + 1/200]; [50 - 1/200]]).
      { unfold num_attempt in EN. cbn in EN. inversion EN. cbn [m_resE].
        f_equal; [f_equal; field|]. f_equal. f_equal. field. }
      intros p Hp. cbv zeta. rewrite R1.
      destruct p as [|[|p]]; [| |cbn in Hp; lia]; cbn [nth mo_e cmodel m_prevE m0 ep_weight cpart map].
      + split; [reflexivity|]. split; [reflexivity|]. split; [reflexivity|]. intros i Hi; cbn in Hi; assert (i = 0%nat) by lia; subst i.
        cbn. rewrite Rmax_left by lra.
        split; [lra|]. match goal with |- Rabs ?x < _ => replace x with (1/200) by field end.
        rewrite Rabs_right; lra.
      + split; [reflexivity|]. split; [reflexivity|]. split; [reflexivity|]. intros i Hi; cbn in Hi; assert (i = 0%nat) by lia; subst i.
        cbn. rewrite Rmax_right by lra.
        split; [lra|]. match goal with |- Rabs ?x < _ => replace x with (-(1/200)) by field end.
        rewrite Rabs_left; lra. }
  destruct E as (k&s'&E). cbn [c_max_factor cfg_default s_ssf s_mf s_h] in *. rewrite E.
  eexists; eexists; reflexivity.
Qed.

(** A part relaxing towards [Tinf] at rate 0.001 around [-0.001], the zero of the tolerance. *)
Definition zg : vec -> vec -> vec := fun _ T => relax (1/1000) (998001/1000000000 + 1/1000000000000) T.
Definition zpart : epart unit := mkEpart (fun _ ports T _ => (zg ports T, None, tt)) [1].
Definition zmodel : model unit := mkModel [zpart] [] [] [] 1e-3 1e-6 1.
Definition zmem : mem unit :=
  mkMem [] [] [[998001/1000000000 + 1/1000000000000 - 2/1000]] [] [[0]] [[0]] [[0]] [tt] [[0]]
        [] [] [] [].

(** The difference of the two estimates is 1e-9 K, a thousandth of [atol], and yet the step is
    rejected. *)
Lemma z_rejected :
  exists m' s',
  num_attempt zmodel 1 zmem = (m', OStable [] (ENum 1000000)) /\
  Rabs (getv (m_resE m') 0 0 - nth 0 (predicted (fun _ => zg) 1 [] (nth 0 (m_prevE zmem) [])) 0)
    = mo_atol zmodel / 1000 /\
  attempt cfg_default (init_sst cfg_default) (OStable [] (ENum 1000000)) = ARetry s'.
Proof.
  assert (E : exists m', num_attempt zmodel 1 zmem = (m', OStable [] (ENum 1000000)) /\
    getv (m_resE m') 0 0 = - (1/1000) + 1/1000000000000).
  { destruct (num_attempt zmodel 1 zmem) as [m' o] eqn:EN.
    unfold num_attempt in EN. cbn in EN. inversion EN as [[E1 E2]]. clear EN.
    exists m'. subst m'. split; [|cbn; lra]. f_equal. f_equal.
    unfold sys_err. f_equal. cbn [mo_cells zmodel].
    match goal with |- sqrt ((0 + (((?y + ?d) - ?t) * 1 / (Rmax _ _ * _ + _) * _ + 0)) / 1) = _ =>
      assert (R1 : y + d = - (1/1000) + 1/1000000000000) by lra;
      assert (R2 : t = - (1/1000) + 1/1000000000000 + 1/1000000000) by lra;
      rewrite R1, R2
    end.
    rewrite Rmax_right by lra.
    transitivity (sqrt (1000000 ^ 2)); [|apply sqrt_pow2; lra]. f_equal.
    match goal with |- (0 + (?a / ?b * _ + 0)) / 1 = _ =>
      assert (E : a / b = - 1000000) end.
    { apply Rmult_eq_reg_r with (1/1000000000000000); [|lra].
      unfold Rdiv at 1. rewrite Rmult_assoc.
      match goal with |- _ * (/ ?b * _) = _ => replace b with (1/1000000000000000) by lra end.
      rewrite Rinv_l by lra. lra. }
    rewrite !E. lra. }
  destruct E as (m'&E&R). exists m'. eexists. split; [exact E|]. split.
  - rewrite R. cbn. rewrite Rabs_left; lra.
  - unfold attempt. cbn [init_sst s_h s_vN s_mf s_ssf s_cnt fold_left fst snd].
    destruct (Rlt_dec 0 1000000) as [_|N]; [|exfalso; lra].
    destruct (Rlt_dec 1000000 1) as [N|_]; [exfalso; lra|].
    destruct (Req_EM_T 1 (c_min_step cfg_default)) as [N|_]; [exfalso; cbn in N; lra|].
    reflexivity.
Qed.
