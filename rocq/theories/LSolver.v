From Coq Require Import Reals List Arith Lia Lra Psatz.
From Verif Require Import MSolver.
Import ListNotations.
Open Scope R_scope.

Lemma err_pow_pos r : 0 < err_pow r.
Proof. unfold err_pow, Rpower. apply exp_pos. Qed.

Lemma err_pow_le1 r : 1 <= r -> err_pow r <= 1.
Proof.
  intros H. unfold err_pow, Rpower.
  destruct (Req_EM_T r 1) as [->|N].
  - rewrite ln_1, Rmult_0_r, exp_0. lra.
  - assert (0 < ln r) by (rewrite <- ln_1; apply ln_increasing; lra).
    left. apply Rlt_le_trans with (exp 0); [apply exp_increasing; lra|rewrite exp_0; lra].
Qed.

Definition rho (c : cfg) : R := Rmax (c_min_factor c) (c_safety c).

Lemma rho_range c : cfg_ok c -> 0 < rho c < 1.
Proof.
  unfold cfg_ok, rho; intros (H1&H2&H3&H4&H5&H6).
  split; [apply Rlt_le_trans with (c_min_factor c); [lra|apply Rmax_l]
         | apply Rmax_lub_lt; lra].
Qed.

(** An error value that leads to the rejection branch. *)
Definition rejecting (e : errval) : Prop :=
  match e with ENum r => 1 <= r \/ r < 0 | _ => True end.

Lemma reject_factor_range c e :
  cfg_ok c -> (match e with ENum r => 1 <= r | _ => True end) ->
  0 < reject_factor c e <= rho c.
Proof.
  intros Hc He. unfold cfg_ok in Hc. destruct Hc as (H1&H2&H3&H4&H5&H6).
  unfold reject_factor, rho. destruct e as [r| |].
  - split; [apply Rlt_le_trans with (c_min_factor c); [lra|apply Rmax_l]|].
    apply Rmax_lub; [apply Rmax_l|].
    pose proof (err_pow_le1 r He). pose proof (err_pow_pos r).
    apply Rle_trans with (c_safety c); [nra|apply Rmax_r].
  - split; [apply Rlt_le_trans with (c_min_factor c); [lra|apply Rmax_l]|].
    apply Rmax_lub; [apply Rmax_l|].
    apply Rle_trans with (c_safety c); [lra|apply Rmax_r].
  - split; [lra|apply Rmax_l].
Qed.

(** Error values that can occur: non-negative, infinite or NaN. *)
Definition err_valid (e : errval) : Prop :=
  match e with ENum r => 0 <= r | _ => True end.

Definition outcome_ok (o : outcome) : Prop :=
  match o with
  | OUnstable d => 1 < d
  | OStable ds e => Forall (fun d => 1 < d) ds
  end.

(** Characterisation of one attempt. *)
Lemma attempt_cases c s o :
  cfg_ok c ->
  (match o with OStable _ e => err_valid e | _ => True end) ->
  match attempt c s o with
  | AAccept u k s' => u = s_h s /\ s_cnt s' = s_cnt s /\ s_ssf s' = s_ssf s
  | ARaise => S (s_cnt s) = 100%nat
  | ARetry s' =>
      (s_cnt s' = S (s_cnt s) /\ (s_cnt s' < 100 \/ 100 <= s_cnt s)%nat) \/
      (s_cnt s' = s_cnt s /\ s_h s <> c_min_step c /\
       exists q, 0 < q <= rho c /\
         s_h s' = if Rlt_dec (s_h s * q) (c_min_step c) then c_min_step c else s_h s * q)
  end.
Proof.
  intros Hc Ho. unfold attempt. destruct o as [d|ds e].
  - destruct (Nat.eqb_spec (S (s_cnt s)) 100) as [E|N]; [exact E|].
    left; cbn [s_cnt]. split; [reflexivity|lia].
  - assert (Hrej : forall e', (match e' with ENum r => 1 <= r | _ => True end) ->
       match
         (if Req_EM_T (s_h s) (c_min_step c)
          then AAccept (s_h s) 6
            (mkSst (s_h s) (fst (fold_left (breach (s_h s)) ds (s_vN s, s_mf s)))
              (snd (fold_left (breach (s_h s)) ds (s_vN s, s_mf s))) (s_ssf s) (s_cnt s))
          else ARetry (mkSst (if Rlt_dec (s_h s * reject_factor c e') (c_min_step c)
                              then c_min_step c else s_h s * reject_factor c e')
              (fst (fold_left (breach (s_h s)) ds (s_vN s, s_mf s)))
              (snd (fold_left (breach (s_h s)) ds (s_vN s, s_mf s))) (s_ssf s) (s_cnt s)))
       with
       | AAccept u k s' => u = s_h s /\ s_cnt s' = s_cnt s /\ s_ssf s' = s_ssf s
       | ARaise => S (s_cnt s) = 100%nat
       | ARetry s' =>
           (s_cnt s' = S (s_cnt s) /\ (s_cnt s' < 100 \/ 100 <= s_cnt s)%nat) \/
           (s_cnt s' = s_cnt s /\ s_h s <> c_min_step c /\
            exists q, 0 < q <= rho c /\
              s_h s' = if Rlt_dec (s_h s * q) (c_min_step c)
                       then c_min_step c else s_h s * q)
       end).
    { intros e' He'. destruct (Req_EM_T (s_h s) (c_min_step c)) as [E|N].
      - cbn. repeat split; reflexivity.
      - right. cbn [s_cnt s_h]. split; [reflexivity|]. split; [exact N|].
        exists (reject_factor c e'). split; [apply reject_factor_range; auto|reflexivity]. }
    destruct e as [r| |].
    + cbn in Ho. destruct (Rlt_dec 0 r) as [H0|H0].
      * destruct (Rlt_dec r 1) as [H1|H1].
        -- cbn. repeat split; reflexivity.
        -- apply (Hrej (ENum r)). lra.
      * destruct (Req_EM_T r 0) as [E|N]; [cbn; repeat split; reflexivity|exfalso; lra].
    + apply (Hrej EInf). exact I.
    + apply (Hrej ENan). exact I.
Qed.

(** Between two instabilities: at most [k+1] error rejections, if [h * rho^k < min]. *)
Lemma errs_finite c o (Hc : cfg_ok c)
  (Ho : forall i, match o i with OStable _ e => err_valid e | _ => True end) :
  forall n k s i,
  (s_cnt s + n >= 99)%nat -> (s_cnt s < 100)%nat ->
  s_h s * rho c ^ k < c_min_step c ->
  (forall s' i', (s_cnt s' + n >= 100)%nat -> (s_cnt s' < 100)%nat ->
     exists fuel, step_loop c fuel o i' s' <> OutOfFuel) ->
  exists fuel, step_loop c fuel o i s <> OutOfFuel.
Proof.
  intros n k. pose proof (rho_range c Hc) as Hr.
  (* one retry from a state with h = min never continues with errors *)
  assert (Hmin : forall s i, s_h s = c_min_step c ->
      (s_cnt s + n >= 99)%nat -> (s_cnt s < 100)%nat ->
      (forall s' i', (s_cnt s' + n >= 100)%nat -> (s_cnt s' < 100)%nat ->
         exists fuel, step_loop c fuel o i' s' <> OutOfFuel) ->
      exists fuel, step_loop c fuel o i s <> OutOfFuel).
  { intros s i Hm Hn Hlt Hrec.
    pose proof (attempt_cases c s (o i) Hc (Ho i)) as A.
    destruct (attempt c s (o i)) as [u kk s'|s'|] eqn:E.
    - exists 1%nat. cbn. rewrite E. discriminate.
    - destruct A as [[A1 A2]|[A1 [A2 _]]]; [|contradiction].
      destruct (Hrec s' (S i)) as [f Hf]; [lia|lia|].
      exists (S f). cbn. rewrite E. exact Hf.
    - exists 1%nat. cbn. rewrite E. discriminate. }
  induction k as [|k IH]; intros s i Hn Hlt Hk Hrec;
    pose proof (attempt_cases c s (o i) Hc (Ho i)) as A;
    destruct (attempt c s (o i)) as [u kk s'|s'|] eqn:E;
    try (exists 1%nat; cbn; rewrite E; discriminate).
  - destruct A as [[A1 A2]|[A1 [A2 [q [Hq A3]]]]].
    + destruct (Hrec s' (S i)) as [f Hf]; [lia|lia|].
      exists (S f). cbn. rewrite E. exact Hf.
    + cbn in Hk. rewrite Rmult_1_r in Hk.
      assert (Hc' := Hc). destruct Hc' as (_&Hmm&_).
      destruct (Rlt_dec (s_h s * q) (c_min_step c)) as [L|L].
      * destruct (Hmin s' (S i)) as [f Hf]; auto; try lia.
        exists (S f). cbn. rewrite E. exact Hf.
      * exfalso. apply L. destruct (Rle_dec (s_h s) 0); nra.
  - destruct A as [[A1 A2]|[A1 [A2 [q [Hq A3]]]]].
    + destruct (Hrec s' (S i)) as [f Hf]; [lia|lia|].
      exists (S f). cbn. rewrite E. exact Hf.
    + destruct (Rlt_dec (s_h s * q) (c_min_step c)) as [L|L].
      * destruct (Hmin s' (S i)) as [f Hf]; auto; try lia.
        exists (S f). cbn. rewrite E. exact Hf.
      * destruct (IH s' (S i)) as [f Hf]; auto; try lia.
        { rewrite A3. assert (0 < rho c ^ k) by (apply pow_lt; lra).
          assert (Hc' := Hc). destruct Hc' as (_&Hmm&_).
          assert (0 < s_h s) by nra.
          cbn [pow] in Hk. apply Rle_lt_trans with (s_h s * (rho c * rho c ^ k)); [|exact Hk].
          rewrite Rmult_assoc. apply Rmult_le_compat_l; [lra|].
          apply Rmult_le_compat_r; lra. }
        exists (S f). cbn. rewrite E. exact Hf.
Qed.

Lemma pow_small c h : cfg_ok c -> exists k, h * rho c ^ k < c_min_step c.
Proof.
  intros Hc. pose proof (rho_range c Hc) as Hr.
  assert (Hc' := Hc). destruct Hc' as (_&Hmm&_).
  destruct (Rle_dec h 0) as [L|L].
  - exists 0%nat. cbn. lra.
  - assert (Hh : 0 < h) by lra.
    assert (Hy : 0 < c_min_step c / h) by (apply Rdiv_lt_0_compat; lra).
    assert (Hab : Rabs (rho c) < 1) by (rewrite Rabs_right; lra).
    destruct (pow_lt_1_zero (rho c) Hab _ Hy) as [N HN].
    exists N. specialize (HN N (Nat.le_refl N)).
    rewrite Rabs_right in HN by (apply Rle_ge, pow_le; lra).
    apply (Rmult_lt_compat_l h) in HN; [|lra].
    replace (h * (c_min_step c / h)) with (c_min_step c) in HN by (field; lra). exact HN.
Qed.

Lemma loop_terminates_aux c o (Hc : cfg_ok c)
  (Ho : forall i, match o i with OStable _ e => err_valid e | _ => True end) :
  forall n s i, (s_cnt s + n >= 100)%nat -> (s_cnt s < 100)%nat ->
  exists fuel, step_loop c fuel o i s <> OutOfFuel.
Proof.
  induction n as [|n IH]; intros s i Hn Hlt; [lia|].
  destruct (pow_small c (s_h s) Hc) as [k Hk].
  apply (errs_finite c o Hc Ho n k s i); auto; lia.
Qed.

Lemma solver_step_terminates c o s :
  cfg_ok c ->
  (forall i, match o i with OStable _ e => err_valid e | _ => True end) ->
  exists fuel, solver_step c fuel o s <> OutOfFuel.
Proof.
  intros Hc Ho. unfold solver_step.
  apply (loop_terminates_aux c o Hc Ho 100); cbn; lia.
Qed.

(** More fuel does not change the result. *)
Lemma step_loop_mono c o : forall f i s r,
  step_loop c f o i s = r -> r <> OutOfFuel ->
  forall g, (f <= g)%nat -> step_loop c g o i s = r.
Proof.
  induction f as [|f IH]; intros i s r H Hr g Hg; cbn in H; [congruence|].
  destruct g as [|g]; [lia|]. cbn.
  destruct (attempt c s (o i)); auto. apply IH; auto. lia.
Qed.

(** ** Raising needs 100 unstable attempts *)
Fixpoint count_unstable (o : nat -> outcome) (i n : nat) : nat :=
  match n with
  | O => O
  | S n' => (match o i with OUnstable _ => 1 | _ => 0 end + count_unstable o (S i) n')%nat
  end.

Lemma raise_needs_100 c o : cfg_ok c ->
  (forall i, match o i with OStable _ e => err_valid e | _ => True end) ->
  forall fuel i s, step_loop c fuel o i s = Raised ->
  exists n, (n <= fuel)%nat /\ (s_cnt s + count_unstable o i n = 100)%nat.
Proof.
  intros Hc Ho. induction fuel as [|f IH]; intros i s H; cbn in H; [discriminate|].
  destruct (attempt c s (o i)) as [u k s'|s'|] eqn:E; try discriminate.
  - destruct (IH _ _ H) as [n [Hn Hn']]. exists (S n). split; [lia|].
    cbn [count_unstable]. unfold attempt in E. specialize (Ho i). destruct (o i) as [d|ds e].
    + destruct (Nat.eqb _ _); inversion E; subst s'; clear E. cbn in Hn'. lia.
    + pose proof (attempt_cases c s (OStable ds e) Hc Ho) as A.
      unfold attempt in A. rewrite E in A.
      assert (s_cnt s' = s_cnt s).
      { clear A. destruct e as [r| |];
        repeat match type of E with context [if ?b then _ else _] => destruct b end;
          try discriminate; inversion E; reflexivity. }
      lia.
  - exists 1%nat. split; [lia|]. cbn. unfold attempt in E. destruct (o i) as [d|ds e].
    + destruct (Nat.eqb_spec (S (s_cnt s)) 100); [|discriminate]. lia.
    + exfalso. destruct e as [r| |];
        repeat match type of E with context [if ?b then _ else _] => destruct b end;
          discriminate.
Qed.

(** ** Invariants of the solver variables *)
Lemma lower_mf_range m : 1 < m -> 1 < lower_mf m <= m.
Proof.
  intros H. unfold lower_mf. destruct (Rlt_dec 1.05 m) as [L|L]; [|lra].
  destruct (Rlt_dec (Rpower m 0.99) 1.05); [lra|].
  split; [lra|]. rewrite <- (Rpower_1 m) at 2 by lra.
  apply Rle_Rpower; lra.
Qed.

Definition vN_pos (v : option R) : Prop := match v with Some x => 0 < x | None => True end.

Lemma breach_range h vm d : 0 < h -> 1 < d -> vN_pos (fst vm) -> 1 < snd vm ->
  (exists v, fst (breach h vm d) = Some v /\ 0 < v < h) /\
  1 < snd (breach h vm d) <= snd vm.
Proof.
  intros Hh Hd Hv Hm. unfold breach. cbn [fst snd].
  assert (Hl : 0 < h / d * 0.95 < h).
  { assert (0 < h / d < h).
    { split; [apply Rdiv_lt_0_compat; lra|].
      apply Rmult_lt_reg_r with d; [lra|]. unfold Rdiv.
      rewrite Rmult_assoc, Rinv_l, Rmult_1_r by lra. nra. }
    lra. }
  split; [|apply lower_mf_range; exact Hm].
  destruct (fst vm) as [v|]; cbn in Hv.
  - destruct (Rlt_dec (h / d * 0.95) v); eexists; split; try reflexivity; lra.
  - eexists; split; try reflexivity; lra.
Qed.

Lemma breaches_range h ds : 0 < h -> Forall (fun d => 1 < d) ds ->
  forall vm, vN_pos (fst vm) -> 1 < snd vm ->
  vN_pos (fst (fold_left (breach h) ds vm)) /\
  1 < snd (fold_left (breach h) ds vm) <= snd vm.
Proof.
  intros Hh Hds. induction Hds as [|d ds Hd Hds IH]; intros vm Hv Hm; cbn [fold_left];
    [split; [exact Hv|lra]|].
  destruct (breach_range h vm d Hh Hd Hv Hm) as [[v [Ev Hv']] Hm'].
  destruct (IH (breach h vm d)) as [I1 I2]; [rewrite Ev; cbn; lra|lra|].
  split; [exact I1|lra].
Qed.

Definition inv (c : cfg) (s : sst) : Prop :=
  0 < s_h s /\ vN_pos (s_vN s) /\ 1 < s_mf s <= c_max_factor c.

Lemma cap_le c h : cap c h <= c_max_step c.
Proof. unfold cap. destruct (Rlt_dec (c_max_step c) h); lra. Qed.
Lemma cap_le2 c h : cap c h <= h.
Proof. unfold cap. destruct (Rlt_dec (c_max_step c) h); lra. Qed.
Lemma cap_pos c h : cfg_ok c -> 0 < h -> 0 < cap c h.
Proof. intros (H&_). intros. unfold cap. destruct (Rlt_dec (c_max_step c) h); lra. Qed.

Lemma accept_factor_ge1 c mf n r : 1 <= accept_factor c mf n r.
Proof. unfold accept_factor. apply Rmax_l. Qed.

Lemma attempt_inv c s o :
  cfg_ok c -> outcome_ok o ->
  (match o with OStable _ e => err_valid e | _ => True end) ->
  inv c s ->
  match attempt c s o with
  | AAccept u k s' => u = s_h s /\ inv c s' /\ s_h s' <= c_max_step c /\
      s_mf s' <= s_mf s /\
      (s_h s' <= s_h s * Rmax 1 (s_mf s' * (INR (s_ssf s) / c_fctr_rec c) ^ 2)
       \/ s_h s' <= s_h s * s_mf s')
  | ARaise => True
  | ARetry s' => inv c s' /\ s_h s' <= Rmax (s_h s) (c_min_step c) /\ s_mf s' <= s_mf s /\
      (match o with OStable _ _ => Rmin (s_h s) (c_min_step c) <= s_h s' | _ => True end) /\
      (s_ssf s' <= s_ssf s)%nat
  end.
Proof.
  intros Hc Ho Hv (Hh & HvN & Hmf). unfold attempt.
  assert (Hc' := Hc). destruct Hc' as (H1&H2&H3&H4&H5&H6).
  destruct o as [d|ds e].
  - destruct (Nat.eqb_spec (S (s_cnt s)) 100) as [E|N]; [exact I|].
    destruct (breach_range (s_h s) (s_vN s, s_mf s) d Hh Ho HvN ltac:(cbn; lra))
      as [[v [Ev Hv']] Hm']. cbn [fst snd] in Hm'.
    rewrite Ev. unfold inv; cbn [s_h s_vN s_mf s_ssf vN_pos].
    repeat split; try lra; try lia.
    apply Rle_trans with (s_h s); [lra|apply Rmax_l].
  - destruct (breaches_range (s_h s) ds Hh Ho (s_vN s, s_mf s) HvN ltac:(cbn; lra))
      as [B1 B2]. cbn [fst snd] in B2.
    set (vm := fold_left (breach (s_h s)) ds (s_vN s, s_mf s)) in *.
    assert (Hrej : forall e', (match e' with ENum r => 1 <= r | _ => True end) ->
       match
         (if Req_EM_T (s_h s) (c_min_step c)
          then AAccept (s_h s) 6
            (mkSst (s_h s) (fst vm) (snd vm) (s_ssf s) (s_cnt s))
          else ARetry (mkSst (if Rlt_dec (s_h s * reject_factor c e') (c_min_step c)
                              then c_min_step c else s_h s * reject_factor c e')
              (fst vm) (snd vm) (s_ssf s) (s_cnt s)))
       with
       | AAccept u k s' => u = s_h s /\ inv c s' /\ s_h s' <= c_max_step c /\
           s_mf s' <= s_mf s /\
           (s_h s' <= s_h s * Rmax 1 (s_mf s' * (INR (s_ssf s) / c_fctr_rec c) ^ 2)
            \/ s_h s' <= s_h s * s_mf s')
       | ARaise => True
       | ARetry s' => inv c s' /\ s_h s' <= Rmax (s_h s) (c_min_step c) /\
           s_mf s' <= s_mf s /\
           Rmin (s_h s) (c_min_step c) <= s_h s' /\ (s_ssf s' <= s_ssf s)%nat
       end).
    { intros e' He'. destruct (Req_EM_T (s_h s) (c_min_step c)) as [E|N].
      - unfold inv; cbn [s_h s_vN s_mf]. repeat split; try lra; auto.
        right. nra.
      - pose proof (reject_factor_range c e' Hc He') as Hq.
        pose proof (rho_range c Hc) as Hr.
        unfold inv; cbn [s_h s_vN s_mf s_ssf].
        assert (0 < s_h s * reject_factor c e' < s_h s) by (split; nra).
        destruct (Rlt_dec (s_h s * reject_factor c e') (c_min_step c)) as [L|L].
        + repeat split; try lra; auto. apply Rmax_r. apply Rmin_r.
        + repeat split; try lra; auto. apply Rle_trans with (s_h s); [lra|apply Rmax_l].
          apply Rle_trans with (c_min_step c); [apply Rmin_r|lra]. }
    destruct e as [r| |].
    + cbn in Hv. destruct (Rlt_dec 0 r) as [R0|R0].
      * destruct (Rlt_dec r 1) as [R1|R1].
        -- pose proof (accept_factor_ge1 c (snd vm) (s_ssf s) r) as Hg.
           unfold inv; cbn [s_h s_vN s_mf].
           assert (0 < s_h s * accept_factor c (snd vm) (s_ssf s) r) by nra.
           repeat split; auto; try lra.
           ++ apply cap_pos; auto.
           ++ apply cap_le.
           ++ left. eapply Rle_trans; [apply cap_le2|].
              apply Rmult_le_compat_l; [lra|]. unfold accept_factor.
              apply Rle_max_compat_l. apply Rmult_le_compat_r; [|apply Rmin_l].
              apply pow2_ge_0.
        -- apply (Hrej (ENum r)). lra.
      * destruct (Req_EM_T r 0) as [E|N]; [|exfalso; lra].
        unfold inv; cbn [s_h s_vN s_mf].
        assert (0 < s_h s * snd vm) by nra.
        repeat split; auto; try lra.
        -- apply cap_pos; auto.
        -- apply cap_le.
        -- right. apply cap_le2.
    + apply (Hrej EInf). exact I.
    + apply (Hrej ENan). exact I.
Qed.

Definition stream_ok (o : nat -> outcome) : Prop :=
  forall i, outcome_ok (o i) /\ match o i with OStable _ e => err_valid e | _ => True end.

Lemma loop_inv c o : cfg_ok c -> stream_ok o ->
  forall fuel i s u k s', inv c s -> step_loop c fuel o i s = Accepted u k s' ->
  0 < u <= Rmax (s_h s) (c_min_step c) /\ inv c s' /\ s_h s' <= c_max_step c /\
  s_mf s' <= s_mf s /\ (s_ssf s' <= s_ssf s)%nat /\
  (s_h s' <= u * Rmax 1 (s_mf s' * (INR (s_ssf s') / c_fctr_rec c) ^ 2)
   \/ s_h s' <= u * s_mf s').
Proof.
  intros Hc Ho. induction fuel as [|f IH]; intros i s u k s' Hi H; cbn in H; [discriminate|].
  destruct (Ho i) as [O1 O2].
  pose proof (attempt_inv c s (o i) Hc O1 O2 Hi) as A.
  pose proof (attempt_cases c s (o i) Hc O2) as B.
  destruct (attempt c s (o i)) as [u0 k0 s0|s0|] eqn:E; [| |discriminate].
  - inversion H; subst u0 k0 s0; clear H.
    destruct A as (A1&A2&A3&A4&A5). destruct B as (_&_&B3). subst u.
    destruct Hi as (Hh&Hr). rewrite B3. repeat split; auto; try (apply A2); try lia.
    apply Rmax_l.
  - destruct A as (A1&A2&A3&A4&A5).
    destruct (IH (S i) s0 u k s' A1 H) as (I1&I2&I3&I4&I5&I6).
    repeat split; try apply I2; try lra; try lia; auto.
    destruct I1 as [_ I1].
    eapply Rle_trans; [exact I1|]. apply Rmax_lub; [exact A2|apply Rmax_r].
Qed.

Lemma loop_lower c o : cfg_ok c -> stream_ok o ->
  (forall i, match o i with OStable _ _ => True | _ => False end) ->
  forall fuel i s u k s', inv c s -> c_min_step c <= s_h s ->
  step_loop c fuel o i s = Accepted u k s' -> c_min_step c <= u.
Proof.
  intros Hc Ho Hst. induction fuel as [|f IH]; intros i s u k s' Hi Hl H; cbn in H;
    [discriminate|].
  destruct (Ho i) as [O1 O2]. specialize (Hst i).
  pose proof (attempt_inv c s (o i) Hc O1 O2 Hi) as A.
  destruct (attempt c s (o i)) as [u0 k0 s0|s0|] eqn:E; [| |discriminate].
  - inversion H; subst. destruct A as (A1&_). lra.
  - destruct A as (A1&A2&A3&A4&A5). apply (IH (S i) s0 u k s' A1); [|exact H].
    destruct (o i); [contradiction|]. rewrite Rmin_right in A4 by lra. exact A4.
Qed.

Lemma reported_stream o : (forall i, reported_ok (o i)) -> stream_ok o.
Proof.
  intros H i. specialize (H i). unfold reported_ok in H. unfold outcome_ok, err_valid.
  destruct (o i) as [d|ds e]; [split; auto|]. destruct H as [H1 H2].
  split; [exact H1|exact H2].
Qed.

Lemma init_inv c : cfg_ok c -> inv c (init_sst c).
Proof. intros (H1&H2&H3&_). unfold inv; cbn. repeat split; lra. Qed.

Lemma enter_inv c s : inv c s -> inv c (enter s).
Proof. intros (H1&H2&H3). unfold inv; cbn. auto. Qed.

Lemma run_inv c os us s : cfg_ok c -> solver_run c os us s ->
  inv c s /\ (us <> [] -> s_h s <= c_max_step c) /\ (us = [] -> s = init_sst c) /\
  (s_ssf s <= length us)%nat.
Proof.
  intros Hc Hr. induction Hr as [|os us s fuel o u k s' Hr IH Ho Hs].
  - split; [apply init_inv; auto|]. repeat split; auto. intros H; congruence.
  - destruct IH as (I1&I2&I3&I4).
    pose proof (loop_inv c o Hc (reported_stream o Ho) fuel 0 (enter s) u k s'
      (enter_inv c s I1) Hs) as (L1&L2&L3&L4&L5&L6).
    split; [exact L2|]. split; [intros _; exact L3|]. split; [destruct us; discriminate|].
    rewrite app_length. cbn in *. lia.
Qed.

(** Upper limit and positivity of all accepted step sizes. *)
Lemma run_upper c os us s : cfg_ok c -> solver_run c os us s ->
  Forall (fun u => 0 < u) us /\
  forall n u, nth_error us n = Some u ->
    match n with O => u <= Rmax 1 (c_max_step c) | _ => u <= c_max_step c end.
Proof.
  intros Hc Hr. induction Hr as [|os us s fuel o u k s' Hr IH Ho Hs].
  - split; [constructor|]. intros [|n] u H; discriminate.
  - pose proof (run_inv c os us s Hc Hr) as (I1&I2&I3&I4).
    pose proof (loop_inv c o Hc (reported_stream o Ho) fuel 0 (enter s) u k s'
      (enter_inv c s I1) Hs) as (L1&L2&L3&L4&L5&L6).
    assert (Hc' := Hc). destruct Hc' as (C1&C2&C3&_).
    destruct IH as [J1 J2]. split.
    + apply Forall_app. split; auto. constructor; [lra|constructor].
    + intros n v Hn. destruct (lt_dec n (length us)) as [L|L].
      * rewrite nth_error_app1 in Hn by lia. apply (J2 n v Hn).
      * rewrite nth_error_app2 in Hn by lia.
        destruct (n - length us)%nat as [|m] eqn:En; [|destruct m; discriminate].
        cbn in Hn. inversion Hn; subst v; clear Hn.
        destruct L1 as [_ L1]. cbn [enter s_h] in L1. destruct n as [|n].
        -- destruct us; [|cbn in L; lia]. rewrite (I3 eq_refl) in L1. cbn in L1.
           eapply Rle_trans; [exact L1|]. apply Rmax_lub; [apply Rmax_l|].
           apply Rle_trans with (c_max_step c); [lra|apply Rmax_r].
        -- eapply Rle_trans; [exact L1|]. apply Rmax_lub; [|lra].
           apply I2. intros ->. cbn in En. discriminate.
Qed.

Lemma accept_keeps_min c o s u k s' : cfg_ok c -> reported_ok o -> inv c s ->
  c_min_step c <= s_h s -> attempt c s o = AAccept u k s' -> c_min_step c <= s_h s'.
Proof.
  intros Hc Ho (Hh&HvN&Hmf) Hl H.
  assert (Hc' := Hc). destruct Hc' as (H1&H2&H3&H4&H5&H6).
  unfold attempt in H. destruct o as [d|ds e]; [destruct (Nat.eqb _ _); discriminate|].
  destruct Ho as [Hds He].
  destruct (breaches_range (s_h s) ds Hh Hds (s_vN s, s_mf s) HvN ltac:(cbn; lra))
      as [B1 B2]. cbn [fst snd] in B2.
  set (vm := fold_left (breach (s_h s)) ds (s_vN s, s_mf s)) in *.
  assert (Hcap : forall x, c_min_step c <= x -> c_min_step c <= cap c x).
  { intros x Hx. unfold cap. destruct (Rlt_dec (c_max_step c) x); lra. }
  destruct e as [r| |].
  - destruct (Rlt_dec 0 r).
    + destruct (Rlt_dec r 1).
      * inversion H; subst; cbn [s_h]. apply Hcap.
        pose proof (accept_factor_ge1 c (snd vm) (s_ssf s) r). nra.
      * destruct (Req_EM_T (s_h s) (c_min_step c)); inversion H; subst; cbn [s_h]; lra.
    + destruct (Req_EM_T r 0).
      * inversion H; subst; cbn [s_h]. apply Hcap. nra.
      * destruct (Req_EM_T (s_h s) (c_min_step c)); inversion H; subst; cbn [s_h]; lra.
  - destruct (Req_EM_T (s_h s) (c_min_step c)); inversion H; subst; cbn [s_h]; lra.
  - destruct (Req_EM_T (s_h s) (c_min_step c)); inversion H; subst; cbn [s_h]; lra.
Qed.

Lemma loop_keeps_min c o : cfg_ok c -> (forall i, reported_ok (o i)) ->
  (forall i, match o i with OStable _ _ => True | _ => False end) ->
  forall fuel i s u k s', inv c s -> c_min_step c <= s_h s ->
  step_loop c fuel o i s = Accepted u k s' -> c_min_step c <= s_h s'.
Proof.
  intros Hc Ho Hst. induction fuel as [|f IH]; intros i s u k s' Hi Hl H; cbn in H;
    [discriminate|].
  destruct (reported_stream o Ho i) as [O1 O2].
  pose proof (attempt_inv c s (o i) Hc O1 O2 Hi) as A.
  destruct (attempt c s (o i)) as [u0 k0 s0|s0|] eqn:E; [| |discriminate].
  - inversion H; subst. apply (accept_keeps_min c (o i) s u k s'); auto.
  - destruct A as (A1&A2&A3&A4&A5). apply (IH (S i) s0 u k s' A1); [|exact H].
    specialize (Hst i). destruct (o i); [contradiction|].
    rewrite Rmin_right in A4 by lra. exact A4.
Qed.

Lemma run_lower c os us s : cfg_ok c -> c_min_step c <= 1 -> solver_run c os us s ->
  (forall o i, In o os -> match o i with OStable _ _ => True | _ => False end) ->
  Forall (fun u => c_min_step c <= u) us.
Proof.
  intros Hc Hm Hr Hst.
  enough (c_min_step c <= s_h s /\ Forall (fun u => c_min_step c <= u) us) by tauto.
  induction Hr as [|os us s fuel o u k s' Hr IH Ho Hs]; [cbn; auto|].
  destruct IH as [I1 I2]; [intros o' i Hin; apply Hst, in_or_app; auto|].
  pose proof (run_inv c os us s Hc Hr) as (J1&_).
  assert (Hst' : forall i, match o i with OStable _ _ => True | _ => False end)
    by (intros i; apply Hst, in_or_app; cbn; auto).
  split.
  - eapply (loop_keeps_min c o Hc Ho Hst' fuel 0 (enter s)); eauto using enter_inv.
  - apply Forall_app; split; auto. constructor; [|constructor].
    eapply (loop_lower c o Hc (reported_stream o Ho) Hst' fuel 0 (enter s));
      eauto using enter_inv.
Qed.

(** Growth from one accepted step to the next. *)
Lemma run_growth c os us u1 u2 s : cfg_ok c -> solver_run c os (us ++ [u1; u2]) s ->
  INR (S (length us)) <= c_fctr_rec c ->
  u2 <= Rmax (c_max_factor c * u1) (c_min_step c).
Proof.
  intros Hc Hr Hl.
  inversion Hr as [E0|os2 us2 s2 fuel2 o2 v2 k2 s2' Hr2 Ho2 Hs2 E1 E2 E3];
    [destruct us; discriminate|].
  assert (Es : us2 = us ++ [u1] /\ v2 = u2).
  { apply app_inj_tail. rewrite E2. rewrite <- app_assoc. reflexivity. }
  destruct Es as [-> ->]. clear E2.
  inversion Hr2 as [E0|os1 us1 s1 fuel1 o1 v1 k1 s1' Hr1 Ho1 Hs1 F1 F2 F3];
    [destruct us; discriminate|].
  apply app_inj_tail in F2. destruct F2 as [-> ->].
  pose proof (run_inv c _ _ _ Hc Hr1) as (I1&I2&I3&I4).
  pose proof (run_inv c _ _ _ Hc Hr2) as (J1&J2&J3&J4).
  pose proof (loop_inv c o1 Hc (reported_stream o1 Ho1) fuel1 0 (enter s1) _ _ _
      (enter_inv c s1 I1) Hs1) as (L1&L2&L3&L4&L5&L6).
  pose proof (loop_inv c o2 Hc (reported_stream o2 Ho2) fuel2 0 (enter s2) _ _ _
      (enter_inv c s2 J1) Hs2) as (M1&_).
  destruct M1 as [_ M1]. cbn [enter s_h] in M1.
  eapply Rle_trans; [exact M1|]. apply Rle_max_compat_r.
  destruct L2 as (N1&N2&N3). assert (Hc' := Hc). destruct Hc' as (C1&C2&C3&C4&C5&C6).
  assert (Hb : s_h s2 <= u1 * s_mf s2).
  { destruct L6 as [L6|L6]; [|exact L6].
    eapply Rle_trans; [exact L6|]. apply Rmult_le_compat_l; [lra|].
    apply Rmax_lub; [lra|].
    assert (Hq : 0 <= INR (s_ssf s2) / c_fctr_rec c <= 1).
    { split.
      - apply Rmult_le_pos; [apply pos_INR|]. left. apply Rinv_0_lt_compat; lra.
      - apply Rmult_le_reg_r with (c_fctr_rec c); [lra|]. unfold Rdiv.
        rewrite Rmult_assoc, Rinv_l, Rmult_1_r, Rmult_1_l by lra.
        eapply Rle_trans; [|exact Hl]. apply le_INR. cbn [enter s_ssf] in L5. lia. }
    assert (0 <= (INR (s_ssf s2) / c_fctr_rec c) ^ 2 <= 1) by (cbn; nra). nra. }
  nra.
Qed.

(** ** Witnesses *)
Definition cfg_default : cfg := mkCfg 100 1e-8 2 0.2 0.9 50.

Lemma cfg_default_ok : cfg_ok cfg_default.
Proof. unfold cfg_ok, cfg_default; cbn. lra. Qed.

Lemma err_pow_cube r : 0 < r -> err_pow r ^ 3 = / r.
Proof.
  intros H. unfold err_pow. rewrite <- Rpower_pow by apply exp_pos.
  rewrite Rpower_mult. replace (- (1 / 3) * INR 3) with (- (1)) by (cbn; field).
  rewrite Rpower_Ropp, Rpower_1 by lra. reflexivity.
Qed.

Lemma cube_le a b : 0 <= b -> a ^ 3 <= b ^ 3 -> a <= b.
Proof.
  intros Hb H. destruct (Rle_dec a b) as [L|L]; [exact L|exfalso].
  assert (b < a) by lra. assert (0 < (a - b) * (a*a + a*b + b*b)) by (apply Rmult_lt_0_compat; nra). cbn in H. nra.
Qed.

Lemma err_pow_099 : err_pow 0.99 <= 1.05.
Proof.
  apply cube_le; [lra|]. rewrite err_pow_cube by lra.
  apply Rmult_le_reg_r with 0.99; [lra|]. rewrite Rinv_l by lra. lra.
Qed.

Lemma err_pow_0001 : 9 <= err_pow 0.001.
Proof.
  apply cube_le; [left; apply err_pow_pos|]. rewrite err_pow_cube by lra.
  apply Rmult_le_reg_r with 0.001; [lra|]. rewrite Rinv_l by lra. lra.
Qed.

Definition oconst (e : R) : nat -> outcome := fun _ => OStable [] (ENum e).

(** The next step variables after one accepted step with error 0.99. *)
Lemma idle_step n : (n <= 50)%nat ->
  solver_step cfg_default 1 (oconst 0.99) (mkSst 1 None 2 n 0)
  = Accepted 1 4 (mkSst 1 None 2 (S n) 0).
Proof.
  intros Hn. unfold solver_step, enter, step_loop, attempt, oconst. cbn [s_h s_vN s_mf s_ssf s_cnt].
  destruct (Rlt_dec 0 0.99) as [_|N]; [|exfalso; lra].
  destruct (Rlt_dec 0.99 1) as [_|N]; [|exfalso; lra].
  cbn [fold_left fst snd].
  assert (E : accept_factor cfg_default 2 (S n) 0.99 = 1).
  { unfold accept_factor. apply Rmax_left. cbn [c_safety c_fctr_rec cfg_default].
    pose proof err_pow_099. pose proof (err_pow_pos 0.99).
    assert (0 <= INR (S n) <= 51).
    { split; [apply pos_INR|]. replace 51 with (INR 51) by (cbn; lra). apply le_INR. lia. }
    generalize dependent (INR (S n)). intros x Hx.
    assert (0 <= (x / 50) ^ 2 <= 1.0404).
    { split; [apply pow2_ge_0|]. cbn. nra. }
    assert (Rmin 2 (0.9 * err_pow 0.99) <= 0.945) by (eapply Rle_trans; [apply Rmin_r|lra]).
    assert (0 <= Rmin 2 (0.9 * err_pow 0.99)) by (apply Rmin_glb; lra).
    nra. }
  rewrite E. unfold cap. cbn [c_max_step cfg_default].
  destruct (Rlt_dec 100 (1 * 1)) as [N|_]; [exfalso; lra|].
  rewrite Rmult_1_r. reflexivity.
Qed.

Lemma idle_run n : (n <= 51)%nat ->
  solver_run cfg_default (repeat (oconst 0.99) n) (repeat 1 n) (mkSst 1 None 2 n 0).
Proof.
  induction n as [|n IH]; intros Hn; [constructor|].
  replace (S n) with (n + 1)%nat at 1 2 by lia. rewrite !repeat_app. cbn [repeat].
  eapply (run_step _ _ _ (mkSst 1 None 2 n 0) 1); [apply IH; lia| |apply idle_step; lia].
  intros i. cbn. split; [constructor|lra].
Qed.

Lemma grow_step : exists s,
  solver_step cfg_default 1 (oconst 0.001) (mkSst 1 None 2 51 0) = Accepted 1 4 s /\
  s_h s = 2.1632 /\ s_vN s = None /\ s_mf s = 2 /\ s_ssf s = 52%nat /\ s_cnt s = 0%nat.
Proof.
  unfold solver_step, enter, step_loop, attempt, oconst. cbn [s_h s_vN s_mf s_ssf s_cnt].
  destruct (Rlt_dec 0 0.001) as [_|N]; [|exfalso; lra].
  destruct (Rlt_dec 0.001 1) as [_|N]; [|exfalso; lra].
  cbn [fold_left fst snd].
  assert (E : accept_factor cfg_default 2 52 0.001 = 2.1632).
  { unfold accept_factor. cbn [c_safety c_fctr_rec cfg_default].
    pose proof err_pow_0001.
    rewrite Rmin_left by lra. replace (INR 52) with 52 by (cbn; lra).
    rewrite Rmax_right; cbn; lra. }
  rewrite E. unfold cap. cbn [c_max_step cfg_default].
  destruct (Rlt_dec 100 (1 * 2.1632)) as [N|_]; [exfalso; lra|].
  eexists. split; [reflexivity|]. cbn. repeat split; lra.
Qed.

Lemma accept_any s e : 0 < e < 1 -> exists k s',
  solver_step cfg_default 1 (oconst e) s = Accepted (s_h s) k s'.
Proof.
  intros He. unfold solver_step, enter, step_loop, attempt, oconst.
  cbn [s_h s_vN s_mf s_ssf s_cnt].
  destruct (Rlt_dec 0 e) as [_|N]; [|exfalso; lra].
  destruct (Rlt_dec e 1) as [_|N]; [|exfalso; lra].
  eexists; eexists; reflexivity.
Qed.

(** With the default settings a step can grow by more than [max_factor = 2]. *)
Lemma growth_exceeds : exists os us u1 u2 s,
  solver_run cfg_default os (us ++ [u1; u2]) s /\ c_max_factor cfg_default * u1 < u2.
Proof.
  destruct grow_step as [s [Hs (E1&E2&E3&E4&E5)]].
  destruct (accept_any s 0.5) as [k [s' Hs']]; [lra|].
  exists ((repeat (oconst 0.99) 51 ++ [oconst 0.001]) ++ [oconst 0.5]), (repeat 1 51), 1,
    (s_h s), s'.
  split; [|rewrite E1; cbn; lra].
  replace (repeat 1 51 ++ [1; s_h s]) with ((repeat 1 51 ++ [1]) ++ [s_h s])
    by (rewrite <- app_assoc; reflexivity).
  eapply run_step; [|intros i; cbn; split; [constructor|lra]|exact Hs'].
  eapply run_step; [apply idle_run; lia|intros i; cbn; split; [constructor|lra]|exact Hs].
Qed.

(** The first step ignores [max_stepsize]. *)
Definition cfg_small : cfg := mkCfg 0.5 1e-8 2 0.2 0.9 50.

Lemma first_step_exceeds : cfg_ok cfg_small /\ exists os us s,
  solver_run cfg_small os us s /\ exists u, In u us /\ c_max_step cfg_small < u.
Proof.
  split; [unfold cfg_ok; cbn; lra|].
  assert (H : exists k s', solver_step cfg_small 1 (oconst 0.5) (init_sst cfg_small)
     = Accepted 1 k s').
  { unfold solver_step, enter, step_loop, attempt, oconst, init_sst.
    cbn [s_h s_vN s_mf s_ssf s_cnt].
    destruct (Rlt_dec 0 0.5) as [_|N]; [|exfalso; lra].
    destruct (Rlt_dec 0.5 1) as [_|N]; [|exfalso; lra].
    eexists; eexists; reflexivity. }
  destruct H as [k [s' H]].
  exists ([] ++ [oconst 0.5]), ([] ++ [1]), s'. split.
  - eapply run_step; [constructor|intros i; cbn; split; [constructor|lra]|exact H].
  - exists 1. split; [cbn; auto|cbn; lra].
Qed.

(** A stability reduction can push the accepted step below [min_stepsize]. *)
Definition cfg_coarse : cfg := mkCfg 1 0.5 2 0.2 0.9 50.
Definition o_unst : nat -> outcome :=
  fun i => match i with O => OUnstable 10 | _ => OStable [] (ENum 0.5) end.

Lemma step_below_min : cfg_ok cfg_coarse /\ exists os us s,
  solver_run cfg_coarse os us s /\ exists u, In u us /\ u < c_min_step cfg_coarse.
Proof.
  split; [unfold cfg_ok; cbn; lra|].
  assert (H : exists u k s', solver_step cfg_coarse 2 o_unst (init_sst cfg_coarse)
     = Accepted u k s' /\ u < 0.5).
  { unfold solver_step, enter, step_loop, attempt, o_unst, init_sst, breach.
    cbn [s_h s_vN s_mf s_ssf s_cnt fst snd Nat.eqb].
    destruct (Rlt_dec 0 0.5) as [_|N]; [|exfalso; lra].
    destruct (Rlt_dec 0.5 1) as [_|N]; [|exfalso; lra].
    eexists; eexists; eexists; split; [reflexivity|lra]. }
  destruct H as [u [k [s' [H Hu]]]].
  exists ([] ++ [o_unst]), ([] ++ [u]), s'. split.
  - eapply run_step; [constructor| |exact H].
    intros [|i]; cbn; [lra|split; [constructor|lra]].
  - exists u. split; [cbn; auto|exact Hu].
Qed.

Lemma reported_err (o : nat -> outcome) : (forall i, reported_ok (o i)) ->
  forall i, match o i with OStable _ e => err_valid e | _ => True end.
Proof. intros H i. apply (reported_stream o H i). Qed.

Lemma terminates_full c o s : cfg_ok c -> (forall i, reported_ok (o i)) ->
  exists fuel,
    (exists u k s', solver_step c fuel o s = Accepted u k s') \/
    (solver_step c fuel o s = Raised /\
     exists n, (n <= fuel)%nat /\ count_unstable o 0 n = 100%nat).
Proof.
  intros Hc Ho.
  destruct (solver_step_terminates c o s Hc (reported_err o Ho)) as [fuel Hf].
  exists fuel. destruct (solver_step c fuel o s) as [u k s'| |] eqn:E.
  - left; eauto.
  - right. split; [reflexivity|]. unfold solver_step in E.
    destruct (raise_needs_100 c o Hc (reported_err o Ho) fuel 0 (enter s) E) as [n [H1 H2]].
    exists n. split; [exact H1|exact H2].
  - congruence.
Qed.

Lemma lower_below : exists c os us s, cfg_ok c /\ c_min_step c <= 1 <= c_max_step c /\
  solver_run c os us s /\ exists u, In u us /\ u < c_min_step c.
Proof.
  destruct step_below_min as [H1 [os [us [s H2]]]].
  exists cfg_coarse, os, us, s. split; [exact H1|]. split; [cbn; lra|exact H2].
Qed.
Lemma upper_above : exists c os us s, cfg_ok c /\
  solver_run c os us s /\ exists u, In u us /\ c_max_step c < u.
Proof.
  destruct first_step_exceeds as [H1 [os [us [s H2]]]].
  exists cfg_small, os, us, s. split; [exact H1|exact H2].
Qed.
Lemma growth_above : exists c os us u1 u2 s, cfg_ok c /\
  solver_run c os (us ++ [u1; u2]) s /\ c_min_step c <= u1 /\ c_max_factor c * u1 < u2.
Proof.
  destruct grow_step as [s [Hs (E1&E2&E3&E4&E5)]].
  destruct (accept_any s 0.5) as [k [s' Hs']]; [lra|].
  exists cfg_default, ((repeat (oconst 0.99) 51 ++ [oconst 0.001]) ++ [oconst 0.5]),
    (repeat 1 51), 1, (s_h s), s'.
  split; [apply cfg_default_ok|].
  split; [|rewrite E1; cbn; lra].
  replace (repeat 1 51 ++ [1; s_h s]) with ((repeat 1 51 ++ [1]) ++ [s_h s])
    by (rewrite <- app_assoc; reflexivity).
  eapply run_step; [|intros i; cbn; split; [constructor|lra]|exact Hs'].
  eapply run_step; [apply idle_run; lia|intros i; cbn; split; [constructor|lra]|exact Hs].
Qed.

(** A concrete run with the default settings: two steps, the first after one stability
    rejection and one NaN rejection. *)
Definition o_mixed : nat -> outcome :=
  fun i => match i with
           | O => OUnstable 2
           | S O => OStable [1.5] ENan
           | _ => OStable [] (ENum 0) end.

Lemma mixed_run : (forall i, reported_ok (o_mixed i)) /\
  exists u k s', solver_step cfg_default 3 o_mixed (init_sst cfg_default) = Accepted u k s'.
Proof.
  split.
  - intros [|[|i]]; cbn; [lra|split; [constructor; [lra|constructor]|exact I]
                        |split; [constructor|lra]].
  - unfold solver_step, enter, step_loop, attempt, o_mixed, init_sst.
    cbn [s_h s_vN s_mf s_ssf s_cnt fst snd Nat.eqb fold_left breach cfg_default
         c_min_step reject_factor c_min_factor].
    match goal with |- context [Req_EM_T ?a 1e-8] => destruct (Req_EM_T a 1e-8) end;
      [exfalso; lra|].
    cbn [s_h s_vN s_mf s_ssf s_cnt].
    destruct (Rlt_dec 0 0) as [N|_]; [exfalso; lra|].
    destruct (Req_EM_T 0 0) as [_|N]; [|exfalso; lra].
    eexists; eexists; eexists; reflexivity.
Qed.

Lemma idle_example : cfg_ok cfg_default /\ c_min_step cfg_default <= 1 /\
  solver_run cfg_default (repeat (oconst 0.99) 51) (repeat 1 51) (mkSst 1 None 2 51 0).
Proof.
  split; [apply cfg_default_ok|]. split; [unfold cfg_default, c_min_step; lra|].
  apply idle_run. lia.
Qed.

Lemma growth_example : exists os s,
  solver_run cfg_default os ([1] ++ [1; 1]) s /\
  INR (S (length [1])) <= c_fctr_rec cfg_default.
Proof.
  eexists; eexists. split; [apply (idle_run 3); lia|].
  unfold cfg_default, c_fctr_rec. cbn. lra.
Qed.
