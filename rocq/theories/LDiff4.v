(** Stability check, conductance laws, buoyancy, heating, evaluation history
    (C04, C16, C17, C54, C55, C58). *)
From Coq Require Import Reals List Arith Bool Lra Lia QArith Qreals Permutation.
From Verif Require Import MFlow MWater MDiff SFlow LFlow LPoly LWater LDiff LDiff2 LDiff3.
Import ListNotations.
Open Scope R_scope.

(** ** Array maximum *)
Lemma rmax_ge k f j : (j <= k)%nat -> f j <= rmax k f.
Proof.
  induction k; intros H; cbn [rmax].
  - replace j with 0%nat by lia. lra.
  - destruct (Nat.eq_dec j (S k)) as [->|N]; [apply Rmax_r|].
    eapply Rle_trans; [apply IHk; lia|apply Rmax_l].
Qed.
Lemma amax_ge n f j : (j < n)%nat -> f j <= amax n f.
Proof. intros H. apply rmax_ge. lia. Qed.
Lemma amax_in n f : (1 <= n)%nat -> exists j, (j < n)%nat /\ amax n f = f j.
Proof.
  intros Hn. unfold amax. assert (G : forall k, exists j, (j <= k)%nat /\ rmax k f = f j).
  { induction k; cbn [rmax]; [exists 0%nat; auto|]. destruct IHk as [j [Hj E]].
    unfold Rmax. destruct (Rle_dec (rmax k f) (f (S k))); [exists (S k)|exists j]; auto. }
  destruct (G (n - 1)%nat) as [j [Hj E]]. exists j. split; [lia|exact E].
Qed.
Lemma amax_le n f c : (1 <= n)%nat -> (forall j, (j < n)%nat -> f j <= c) -> amax n f <= c.
Proof. intros Hn H. destruct (amax_in n f Hn) as [j [Hj ->]]. auto. Qed.
Lemma amax_lt n f c : (1 <= n)%nat -> (forall j, (j < n)%nat -> f j < c) -> amax n f < c.
Proof. intros Hn H. destruct (amax_in n f Hn) as [j [Hj ->]]. auto. Qed.

(** ** The divider is proportional to the step *)
Lemma vn_div_scale g r m dt : 0 <= dt -> vn_div g r m dt = dt * vn_div g r m 1.
Proof.
  intros H. unfold vn_div, vn_diff.
  assert (M : forall a b, dt * Rmax a b = Rmax (dt * a) (dt * b)) by (intros; symmetry; apply RmaxRmult, H).
  assert (D : forall a b, Rmax a b / 0.5 = Rmax (a / 0.5) (b / 0.5)).
  { intros a b. unfold Rdiv. rewrite !(Rmult_comm _ (/ 0.5)). symmetry. rewrite RmaxRmult; [reflexivity|lra]. }
  rewrite !D, !M. unfold Rdiv. f_equal; [f_equal; [f_equal|]|]; ring.
Qed.

Lemma check_objects g r m dt s : 0 < dt -> 0 < st_max s -> 1.05 <= st_fac s ->
  let s' := stability_check (vn_div g r m dt) dt s in
  (1 < vn_div g r m dt ->
     st_ok s' = false /\ 0 < st_max s' /\ st_max s' < dt /\ st_max s' <= st_max s /\
     vn_div g r m (st_max s') < 1 /\ 1.05 <= st_fac s' <= st_fac s) /\
  (vn_div g r m dt <= 1 -> s' = s).
Proof.
  intros Hdt Hm Hf s'. unfold s', stability_check. split; intros Hd.
  - destruct (Rlt_dec 1 (vn_div g r m dt)) as [_|N]; [|contradiction]. cbn [st_ok st_max st_fac].
    set (D := vn_div g r m dt) in *.
    assert (I : 0 < / D < 1).
    { split; [apply Rinv_0_lt_compat; lra|]. rewrite <- Rinv_1. apply Rinv_lt_contravar; lra. }
    assert (L : 0 < dt / D * 0.95 < dt).
    { unfold Rdiv. split; [|nra]. apply Rmult_lt_0_compat; [|lra]. apply Rmult_lt_0_compat; lra. }
    assert (ED : D = dt * vn_div g r m 1) by (apply vn_div_scale; lra).
    assert (V1 : 0 < vn_div g r m 1) by nra.
    assert (EL : dt / D * 0.95 * vn_div g r m 1 = 0.95).
    { rewrite ED. field. split; lra. }
    split; [reflexivity|].
    assert (X : 0 < (if Rlt_dec (dt / D * 0.95) (st_max s) then dt / D * 0.95 else st_max s) <= dt / D * 0.95).
    { destruct (Rlt_dec (dt / D * 0.95) (st_max s)); lra. }
    assert (X2 : (if Rlt_dec (dt / D * 0.95) (st_max s) then dt / D * 0.95 else st_max s) <= st_max s).
    { destruct (Rlt_dec (dt / D * 0.95) (st_max s)); lra. }
    set (st := if Rlt_dec _ _ then _ else _) in *.
    split; [lra|]. split; [lra|]. split; [exact X2|]. split.
    + rewrite vn_div_scale by lra. nra.
    + destruct (Rlt_dec 1.05 (st_fac s)) as [H1|H1]; [|lra].
      assert (P : Rpower (st_fac s) 0.99 <= st_fac s).
      { rewrite <- (Rpower_1 (st_fac s)) at 2 by lra. apply Rle_Rpower; lra. }
      destruct (Rlt_dec (Rpower (st_fac s) 0.99) 1.05); lra.
  - destruct (Rlt_dec 1 (vn_div g r m dt)); [lra|reflexivity].
Qed.

(** What a passed check says, and a sufficient condition for passing. *)
Lemma div_mono a b c : 0 < c -> a * / c <= b -> a <= b * c.
Proof. intros H A. apply Rmult_le_compat_r with (r := c) in A; [|lra]. rewrite Rmult_assoc, Rinv_l in A; lra. Qed.
Lemma div_mono' a b c : 0 < c -> a <= b * c -> a * / c <= b.
Proof. intros H A. apply Rmult_le_reg_r with c; [exact H|]. rewrite Rmult_assoc, Rinv_l; lra. Qed.

Section Vn.
Variables (g : geo) (r : res) (m dt : R).
Hypothesis G : geo_ok g.
Hypothesis Np : (1 <= g_np g)%nat.
Hypothesis Rc : forall j, (j < g_n g)%nat -> 0 < r_rhocp r j.
Hypothesis Rr : forall j, (j < g_n g)%nat -> 0 < r_rho r j.
Hypothesis Hdt : 0 <= dt.

Lemma passes_inv : vn_div g r m dt <= 1 ->
  (forall j, (S j < g_n g)%nat ->
     r_tb r (S j) * dt <= 0.5 * (r_rhocp r (S j) * g_A g * g_gsp g)) /\
  (exists k, (k < g_n g)%nat /\ (forall j, (j < g_n g)%nat -> r_rho r j <= r_rho r k) /\
     m * dt <= g_V g * r_rho r k) /\
  (forall j, (j < g_n g)%nat -> r_ua r j * dt <= 0.5 * (r_rhocp r j * g_As g * g_rt g)).
Proof.
  intros H. unfold vn_div in H.
  pose proof (Rmax_l (vn_diff g r dt / 0.5) (m * dt / (g_V g * amax (g_n g) (r_rho r)) / 1)) as M1.
  pose proof (Rmax_r (vn_diff g r dt / 0.5) (m * dt / (g_V g * amax (g_n g) (r_rho r)) / 1)) as M2.
  assert (D : vn_diff g r dt <= 0.5) by lra. unfold vn_diff in D.
  destruct G. split; [|split].
  - intros j Hj.
    assert (Q : amax (g_n g - 1) (fun j => r_tb r (S j) / r_rhocp r (S j)) * dt / (g_A g * g_gsp g) <= 0.5).
    { eapply Rle_trans; [|exact D]. eapply Rle_trans; [|apply Rmax_l]. apply Rmax_l. }
    pose proof (amax_ge (g_n g - 1) (fun j => r_tb r (S j) / r_rhocp r (S j)) j ltac:(lia)) as A. cbn in A.
    set (am := amax _ _) in A; fold am in Q.
    assert (PA : 0 < g_A g * g_gsp g) by (apply Rmult_lt_0_compat; lra).
    apply div_mono in Q; [|exact PA].
    assert (r_tb r (S j) <= am * r_rhocp r (S j)) by (apply div_mono; [apply Rc; lia|exact A]).
    specialize (Rc (S j) Hj).
    assert (r_tb r (S j) * dt <= am * r_rhocp r (S j) * dt) by (apply Rmult_le_compat_r; lra).
    assert (am * dt * r_rhocp r (S j) <= 0.5 * (g_A g * g_gsp g) * r_rhocp r (S j)) by (apply Rmult_le_compat_r; lra).
    lra.
  - destruct (amax_in (g_n g) (r_rho r) ltac:(lia)) as [k [Hk E]]. exists k. split; [exact Hk|].
    split; [intros j Hj; rewrite <- E; apply amax_ge; exact Hj|].
    rewrite E in M2, H. specialize (Rr k Hk).
    assert (0 < g_V g * r_rho r k) by (apply Rmult_lt_0_compat; lra).
    assert (Q : m * dt / (g_V g * r_rho r k) <= 1) by lra.
    apply div_mono in Q; lra.
  - intros j Hj.
    assert (Q : amax (g_n g) (fun j => r_ua r j / r_rhocp r j) * dt / (g_As g * g_rt g) <= 0.5).
    { eapply Rle_trans; [|exact D]. apply Rmax_r. }
    pose proof (amax_ge (g_n g) (fun j => r_ua r j / r_rhocp r j) j Hj) as A. cbn in A.
    set (am := amax _ _) in A; fold am in Q.
    assert (PA : 0 < g_As g * g_rt g) by (apply Rmult_lt_0_compat; lra).
    apply div_mono in Q; [|exact PA].
    assert (r_ua r j <= am * r_rhocp r j) by (apply div_mono; [apply Rc; lia|exact A]).
    specialize (Rc j Hj).
    assert (r_ua r j * dt <= am * r_rhocp r j * dt) by (apply Rmult_le_compat_r; lra).
    assert (am * dt * r_rhocp r j <= 0.5 * (g_As g * g_rt g) * r_rhocp r j) by (apply Rmult_le_compat_r; lra).
    lra.
Qed.

Lemma passes : 
  (forall j, (S j < g_n g)%nat ->
     r_tb r (S j) * dt <= 0.5 * (r_rhocp r (S j) * g_A g * g_gsp g)) ->
  (forall i, (i < g_np g)%nat -> exists j, (j < g_n g)%nat /\
     r_uap r i * dt <= 0.5 * (r_rhocp r j * g_pA g i * g_psub g i)) ->
  (forall j, (j < g_n g)%nat -> r_ua r j * dt <= 0.5 * (r_rhocp r j * g_As g * g_rt g)) ->
  (exists k, (k < g_n g)%nat /\ m * dt <= g_V g * r_rho r k) ->
  vn_div g r m dt <= 1.
Proof.
  intros H1 H2 H3 [k [Hk H4]]. destruct G. unfold vn_div. apply Rmax_lub.
  - assert (D : vn_diff g r dt <= 0.5); [|lra]. unfold vn_diff.
    apply Rmax_lub; [apply Rmax_lub|].
    + assert (PA : 0 < g_A g * g_gsp g) by (apply Rmult_lt_0_compat; lra).
      apply div_mono'; [exact PA|].
      destruct (amax_in (g_n g - 1) (fun j => r_tb r (S j) / r_rhocp r (S j)) ltac:(lia)) as [j [Hj ->]].
      specialize (H1 j ltac:(lia)). specialize (Rc (S j) ltac:(lia)).
      replace (r_tb r (S j) / r_rhocp r (S j) * dt) with (r_tb r (S j) * dt * / r_rhocp r (S j)) by (unfold Rdiv; ring).
      apply div_mono'; [exact Rc|]. lra.
    + destruct (amax_in (g_n g) (r_rhocp r) ltac:(lia)) as [kk [Hkk Ek]].
      pose proof (Rc kk Hkk) as Pk.
      rewrite Ek. apply div_mono'; [exact Pk|].
      destruct (amax_in (g_np g) (fun i => r_uap r i / (g_pA g i * g_psub g i)) Np) as [i [Hi ->]].
      destruct (H2 i Hi) as [j [Hj Hu]].
      pose proof (ok_pA i) as a1. pose proof (ok_psub i) as a2.
      assert (a3 : 0 < g_pA g i * g_psub g i) by (apply Rmult_lt_0_compat; lra).
      replace (r_uap r i / (g_pA g i * g_psub g i) * dt) with (r_uap r i * dt * / (g_pA g i * g_psub g i)) by (unfold Rdiv; ring).
      apply div_mono'; [exact a3|].
      assert (r_rhocp r j <= r_rhocp r kk) by (rewrite <- Ek; apply amax_ge; exact Hj).
      assert (r_rhocp r j * (g_pA g i * g_psub g i) <= r_rhocp r kk * (g_pA g i * g_psub g i)) by (apply Rmult_le_compat_r; lra).
      lra.
    + assert (PA : 0 < g_As g * g_rt g) by (apply Rmult_lt_0_compat; lra).
      apply div_mono'; [exact PA|].
      destruct (amax_in (g_n g) (fun j => r_ua r j / r_rhocp r j) ltac:(lia)) as [j [Hj ->]].
      specialize (H3 j Hj). specialize (Rc j Hj).
      replace (r_ua r j / r_rhocp r j * dt) with (r_ua r j * dt * / r_rhocp r j) by (unfold Rdiv; ring).
      apply div_mono'; [exact Rc|]. lra.
  - destruct (amax_in (g_n g) (r_rho r) ltac:(lia)) as [kk [Hkk Ek]]. rewrite Ek.
    assert (r_rho r k <= r_rho r kk) by (rewrite <- Ek; apply amax_ge; exact Hk).
    specialize (Rr kk Hkk). assert (0 < g_V g * r_rho r kk) by (apply Rmult_lt_0_compat; lra).
    assert (Q : m * dt * / (g_V g * r_rho r kk) <= 1); [|unfold Rdiv; lra].
    apply div_mono'; [assumption|].
    assert (g_V g * r_rho r k <= g_V g * r_rho r kk) by (apply Rmult_le_compat_l; lra). lra.
Qed.
End Vn.

(** ** Conductance laws *)
Lemma parallel_val a l : parallel_circuit a l = fold_right Rplus 0 (a :: l).
Proof.
  unfold parallel_circuit. revert a. induction l as [|x l IH]; intros a; cbn [fold_left fold_right]; [lra|].
  rewrite IH. cbn [fold_right]. lra.
Qed.
Lemma series_val a l : series_circuit a l = 1 / fold_right (fun x s => 1 / x + s) 0 (a :: l).
Proof.
  unfold series_circuit. f_equal. cbn [fold_right].
  assert (E : forall l s, fold_left (fun s x => s + 1 / x) l s = s + fold_right (fun x s => 1 / x + s) 0 l).
  { induction l0 as [|x l0 IH]; intros s; cbn [fold_left fold_right]; [lra|]. rewrite IH. lra. }
  apply E.
Qed.
Lemma sum_perm (h : R -> R) l l' : Permutation l l' ->
  fold_right (fun x s => h x + s) 0 l = fold_right (fun x s => h x + s) 0 l'.
Proof. induction 1; cbn; lra. Qed.
Lemma sum_member (h : R -> R) l x : (forall y, In y l -> 0 < h y) -> In x l ->
  h x <= fold_right (fun x s => h x + s) 0 l.
Proof.
  intros Hp Hx. induction l as [|y l IH]; [destruct Hx|]. cbn [fold_right].
  assert (N : 0 <= fold_right (fun x s => h x + s) 0 l).
  { assert (Hp' : forall z, In z l -> 0 < h z) by (intros; apply Hp; right; assumption).
    clear -Hp'. induction l as [|z l IH]; cbn; [lra|].
    pose proof (Hp' z (or_introl eq_refl)). specialize (IH ltac:(intros; apply Hp'; right; assumption)). lra. }
  destruct Hx as [-> | Hx]; [lra|].
  specialize (IH ltac:(intros; apply Hp; right; assumption) Hx).
  pose proof (Hp y (or_introl eq_refl)). lra.
Qed.
Lemma sum_member_lt (h : R -> R) a b l x : (forall y, In y (a :: b :: l) -> 0 < h y) -> In x (a :: b :: l) ->
  h x < fold_right (fun x s => h x + s) 0 (a :: b :: l).
Proof.
  intros Hp Hx. cbn [fold_right].
  pose proof (Hp a (or_introl eq_refl)). pose proof (Hp b (or_intror (or_introl eq_refl))).
  assert (N : 0 <= fold_right (fun x s => h x + s) 0 l).
  { assert (Hp' : forall z, In z l -> 0 < h z) by (intros; apply Hp; do 2 right; assumption).
    clear -Hp'. induction l as [|z l IH]; cbn; [lra|].
    pose proof (Hp' z (or_introl eq_refl)). specialize (IH ltac:(intros; apply Hp'; right; assumption)). lra. }
  destruct Hx as [<- | [<- | Hx]]; [lra|lra|].
  assert (h x <= fold_right (fun x s => h x + s) 0 l); [|lra].
  apply sum_member; [intros; apply Hp; do 2 right; assumption|exact Hx].
Qed.
Lemma inv1_pos x : 0 < x -> 0 < 1 / x.
Proof. intros. apply Rdiv_lt_0_compat; lra. Qed.

Lemma inv_le_swap x s : 0 < x -> 0 < s -> 1 / x <= s -> 1 / s <= x.
Proof.
  intros Hx Hs H. apply Rmult_le_reg_r with s; [exact Hs|]. unfold Rdiv in *. rewrite Rmult_assoc, Rinv_l by lra.
  apply Rmult_le_compat_l with (r := x) in H; [|lra]. replace (x * (1 * / x)) with 1 in H by (field; lra). lra.
Qed.
Lemma inv_lt_swap x s : 0 < x -> 0 < s -> 1 / x < s -> 1 / s < x.
Proof.
  intros Hx Hs H. apply Rmult_lt_reg_r with s; [exact Hs|]. unfold Rdiv in *. rewrite Rmult_assoc, Rinv_l by lra.
  apply Rmult_lt_compat_l with (r := x) in H; [|lra]. replace (x * (1 * / x)) with 1 in H by (field; lra). lra.
Qed.

Lemma series_laws a l : (forall x, In x (a :: l) -> 0 < x) ->
  0 < series_circuit a l /\
  (forall x, In x (a :: l) -> series_circuit a l <= x /\ (l <> [] -> series_circuit a l < x)) /\
  (forall a' l', Permutation (a :: l) (a' :: l') -> series_circuit a' l' = series_circuit a l) /\
  (l = [] -> series_circuit a l = a).
Proof.
  intros Hp. rewrite series_val.
  assert (Hi : forall y, In y (a :: l) -> 0 < 1 / y) by (intros; apply inv1_pos; auto).
  assert (Ga : 0 < fold_right (fun x s => 1 / x + s) 0 (a :: l)).
  { eapply Rlt_le_trans; [apply (Hi a); left; reflexivity|].
    apply (sum_member (fun x => 1 / x)); [exact Hi|left; reflexivity]. }
  split; [apply inv1_pos, Ga|]. split; [|split].
  - intros x Hx. specialize (Hp x Hx).
    split.
    + apply inv_le_swap; [exact Hp|exact Ga|]. apply (sum_member (fun x => 1 / x)); assumption.
    + intros Hl. destruct l as [|b l]; [contradiction|].
      apply inv_lt_swap; [exact Hp|exact Ga|]. apply (sum_member_lt (fun x => 1 / x)); assumption.
  - intros a' l' P. rewrite series_val. f_equal. symmetry. apply (sum_perm (fun x => 1 / x)), P.
  - intros ->. cbn. specialize (Hp a (or_introl eq_refl)). field. lra.
Qed.
Lemma parallel_laws a l : (forall x, In x (a :: l) -> 0 < x) ->
  (forall x, In x (a :: l) -> x <= parallel_circuit a l /\ (l <> [] -> x < parallel_circuit a l)) /\
  (forall a' l', Permutation (a :: l) (a' :: l') -> parallel_circuit a' l' = parallel_circuit a l).
Proof.
  intros Hp. rewrite parallel_val. split.
  - intros x Hx. split; [apply (sum_member (fun x => x)); assumption|].
    intros Hl. destruct l as [|b l]; [contradiction|]. apply (sum_member_lt (fun x => x)); assumption.
  - intros a' l' P. rewrite parallel_val. symmetry. apply (sum_perm (fun x => x)), P.
Qed.

Lemma lam_mean_laws a b : 0 < a -> 0 < b ->
  let m := 2 * a * b / (a + b) in
  Rmin a b <= m <= Rmax a b /\ m = 2 * b * a / (b + a) /\ (a = b -> m = a) /\
  1 / (m / 2) = 1 / a + 1 / b /\ (a < b -> a < m < b).
Proof.
  intros Ha Hb m. assert (S : 0 < a + b) by lra.
  assert (E : m * (a + b) = 2 * a * b) by (unfold m; field; lra).
  assert (Pm : 0 < m). { apply Rmult_lt_reg_r with (a + b); [lra|]. rewrite E. nra. }
  split; [|split; [|split; [|split]]].
  - unfold Rmin, Rmax. destruct (Rle_dec a b).
    + split; apply Rmult_le_reg_r with (a + b); try lra; rewrite E; nra.
    + split; apply Rmult_le_reg_r with (a + b); try lra; rewrite E; nra.
  - unfold m. field. lra.
  - intros <-. unfold m. field. lra.
  - unfold m. field. split; [|split]; lra.
  - intros Hab. split; apply Rmult_lt_reg_r with (a + b); try lra; rewrite E; nra.
Qed.

(** ** Buoyancy *)
Lemma no_inversion_iff n T : no_inversion n T = true <-> forall j, (S j < n)%nat -> T (S j) <= T j.
Proof.
  unfold no_inversion. rewrite forallb_forall. split; intros H j Hj.
  - specialize (H j ltac:(apply in_seq; lia)). destruct (Rle_dec (T (S j) - T j) 0); [lra|discriminate].
  - apply in_seq in Hj. specialize (H j ltac:(lia)). destruct (Rle_dec (T (S j) - T j) 0); [reflexivity|lra].
Qed.
Lemma nu_zero di T : buoyancy_nu di T 0 = 0.
Proof.
  unfold buoyancy_nu.
  replace (Pr_water T * 9.81 * (di / 4) ^ 3 * Rabs (beta_water T) * 0 / ny_water T ^ 2 *
      Rpower (1 + npow (0.322 / Pr_water T) (11 / 20)) (- 20 / 11)) with 0 by (unfold Rdiv; ring).
  destruct (Rlt_dec 70000 0); [lra|]. unfold npow. destruct (Req_EM_T 0 0); [lra|contradiction].
Qed.
Lemma buoyancy_laws n di T lmean : (forall j, (S j < n)%nat -> 0 <= lmean j) ->
  ((forall j, (S j < n)%nat -> T (S j) <= T j) -> forall j, buoyancy n di T lmean j = lmean j) /\
  (forall j, (S j < n)%nat ->
     lmean j <= buoyancy n di T lmean j /\
     (T (S j) <= T j -> buoyancy n di T lmean j = lmean j) /\
     (buoyancy n di T lmean j <> lmean j -> 20 * lmean j <= buoyancy n di T lmean j)).
Proof.
  intros Hl. split.
  - intros H j. unfold buoyancy. rewrite (proj2 (no_inversion_iff n T) H). reflexivity.
  - intros j Hj. specialize (Hl j Hj). unfold buoyancy. destruct (no_inversion n T).
    + split; [lra|]. split; [reflexivity|]. intros N. contradiction.
    + cbv zeta. set (nu := buoyancy_nu _ _ _).
      destruct (Rle_dec 1 nu) as [H1|H1].
      * split; [nra|]. split; [|intros _; nra].
        intros Hs. exfalso. assert (E : nu = 0); [|lra].
        unfold nu. assert (Ez : (if Rlt_dec (T (S j) - T j) 0 then 0 else T (S j) - T j) = 0).
        { destruct (Rlt_dec (T (S j) - T j) 0); lra. }
        rewrite Ez. apply nu_zero.
      * split; [lra|]. split; [reflexivity|]. intros N. contradiction.
Qed.

(** ** Heating element *)
Lemma heat_power_hot n Tx dQ j : (j < n)%nat -> 110 <= Tx (S j) -> heat_power n Tx dQ = 0.
Proof.
  intros Hj H. unfold heat_power.
  assert (E : existsb (fun k => if Rle_dec 110 (Tx k) then true else false) (seq 0 (n + 2)) = true).
  { apply existsb_exists. exists (S j). split; [apply in_seq; lia|].
    destruct (Rle_dec 110 (Tx (S j))); [reflexivity|contradiction]. }
  rewrite E. reflexivity.
Qed.
Lemma heat_power_cold n Tx dQ : Tx 0%nat < 110 -> Tx (S n) < 110 ->
  (forall j, (j < n)%nat -> Tx (S j) < 110) -> heat_power n Tx dQ = dQ.
Proof.
  intros H0 Hn H. unfold heat_power.
  assert (E : existsb (fun k => if Rle_dec 110 (Tx k) then true else false) (seq 0 (n + 2)) = false).
  { apply not_true_is_false. intros E. apply existsb_exists in E. destruct E as [k [Hk E]].
    apply in_seq in Hk. destruct (Rle_dec 110 (Tx k)) as [L|L]; [|discriminate].
    destruct k as [|k]; [lra|]. destruct (Nat.eq_dec k n) as [->|N]; [lra|].
    specialize (H k ltac:(lia)). lra. }
  rewrite E. reflexivity.
Qed.
Lemma heated_sum n lo hi p (mcp : arr) : (lo < hi)%nat -> (hi <= n)%nat ->
  (forall j, (j < n)%nat -> mcp j <> 0) ->
  rsum n (fun j => mcp j * heated lo hi p mcp j) = p.
Proof.
  intros H1 H2 Hm.
  assert (K : INR (hi - lo) <> 0) by (apply not_0_INR; lia).
  assert (P : forall k, (k <= n)%nat -> rsum k (fun j => mcp j * heated lo hi p mcp j) =
     p / INR (hi - lo) * INR (Nat.min k hi - lo)).
  { induction k; intros Hk; cbn [rsum].
    - replace (Nat.min 0 hi - lo)%nat with 0%nat by lia. cbn. ring.
    - rewrite IHk by lia. unfold heated.
      destruct (Nat.leb_spec lo k), (Nat.ltb_spec k hi); cbn [andb].
      + replace (Nat.min (S k) hi - lo)%nat with (S (Nat.min k hi - lo)) by lia. rewrite S_INR.
        field. split; [exact K|apply Hm; lia].
      + replace (Nat.min (S k) hi - lo)%nat with (Nat.min k hi - lo)%nat by lia. ring.
      + replace (Nat.min (S k) hi - lo)%nat with (Nat.min k hi - lo)%nat by lia. ring.
      + lia. }
  rewrite P by lia. replace (Nat.min n hi - lo)%nat with (hi - lo)%nat by lia. field. exact K.
Qed.

(** ** The slope depends on how often it was evaluated *)
Lemma npow0 e : npow 0 e = 0.
Proof. unfold npow. destruct (Req_EM_T 0 0); [reflexivity|contradiction]. Qed.
Lemma rayleigh_pos Ts Tinf L ny : Ts <> Tinf -> 0 < L -> 0 <= Tinf -> 0 < ny -> 0 < rayleigh Ts Tinf L ny.
Proof.
  intros H HL HT Hn. unfold rayleigh. assert (0 < Rabs (Ts - Tinf)) by (apply Rabs_pos_lt; lra).
  assert (0 < L ^ 3) by (apply pow_lt; lra). assert (0 < ny ^ 2) by (apply pow_lt; lra).
  apply Rdiv_lt_0_compat.
  - apply Rmult_lt_0_compat; [|lra]. apply Rmult_lt_0_compat; [|lra]. apply Rmult_lt_0_compat; lra.
  - apply Rmult_lt_0_compat; lra.
Qed.
Lemma cyl_alpha_warmer Ts Tinf L v rt : 0 <= Tinf -> Tinf < Ts -> Ts <= 100 -> 0 < L -> 0 < rt ->
  cyl_alpha_inf Tinf Tinf L v rt < cyl_alpha_inf Ts Tinf L v rt.
Proof.
  intros H0 H1 H2 HL Hr. unfold cyl_alpha_inf.
  replace ((Tinf + Tinf) / 2) with Tinf by lra. set (Tm := (Tinf + Ts) / 2).
  assert (T1 : Tinf < Tm <= 100) by (unfold Tm; lra).
  pose proof (lam_air_increasing Tinf Tm H0 ltac:(lra) ltac:(lra)) as LI.
  pose proof (lam_air_bounds Tinf ltac:(lra)) as LB.
  pose proof (ny_air_bounds Tm ltac:(lra)) as NB.
  assert (R0 : rayleigh Tinf Tinf L (ny_dryair Tinf) = 0).
  { unfold rayleigh. rewrite Rminus_diag_eq by reflexivity. rewrite Rabs_R0. unfold Rdiv. ring. }
  rewrite R0. pose proof (rayleigh_pos Ts Tinf L (ny_dryair Tm) ltac:(lra) HL H0 ltac:(lra)) as RP.
  set (Ra := rayleigh Ts Tinf L (ny_dryair Tm)) in *. rewrite !Rmult_0_l, npow0.
  unfold Rdiv. apply Rmult_lt_compat_r; [apply Rinv_0_lt_compat, HL|].
  destruct v.
  - pose proof (npow_pos (Ra * 0.3466023585520853) (1/6) ltac:(lra)) as N. set (x := npow _ _) in *.
    assert (0 < 0.435 * L * / (2 * rt)) by (apply Rdiv_lt_0_compat; lra).
    set (c := 0.435 * L * / (2 * rt)) in *.
    assert ((0.825 + 0.387 * 0) ^ 2 + c < (0.825 + 0.387 * x) ^ 2 + c) by nra.
    assert (0 < (0.825 + 0.387 * 0) ^ 2 + c) by nra. nra.
  - pose proof (npow_pos (Ra * 0.3269207911296459) (1/6) ltac:(lra)) as N. set (x := npow _ _) in *.
    assert ((0.752 + 0.387 * 0) ^ 2 < (0.752 + 0.387 * x) ^ 2) by nra.
    assert (0 < (0.752 + 0.387 * 0) ^ 2) by nra. nra.
Qed.
Lemma ua_cyl_increasing g ai a1 a2 : geo_ok g -> 0 < ai -> 0 < a1 -> a1 < a2 ->
  ua_cyl g ai a1 < ua_cyl g ai a2.
Proof.
  intros G Ha H1 H2. destruct G. unfold ua_cyl.
  assert (P1 : 0 < 1 / ai) by (apply Rdiv_lt_0_compat; lra).
  assert (P2 : 0 <= g_rlw g / g_lw g) by (apply Rmult_le_pos; [lra|apply Rlt_le, Rinv_0_lt_compat; lra]).
  assert (P3 : 0 <= g_rli g / g_li g) by (apply Rmult_le_pos; [lra|apply Rlt_le, Rinv_0_lt_compat; lra]).
  assert (P4 : 0 < g_rr g / a2) by (apply Rdiv_lt_0_compat; lra).
  assert (P5 : g_rr g / a2 < g_rr g / a1).
  { unfold Rdiv. apply Rmult_lt_compat_l; [lra|]. apply Rinv_lt_contravar; nra. }
  unfold Rdiv at 1 6. apply Rmult_lt_compat_l; [lra|]. apply Rinv_lt_contravar; [|lra].
  apply Rmult_lt_0_compat; lra.
Qed.

Lemma slope_history g lmean dm f lids Tx Tp Tamb :
  geo_ok g -> range_ok g Tx Tp Tamb -> lids = false ->
  let r1 := part_diff g lmean dm f lids no_heat Tx Tp Tamb buf0 in
  let r2 := part_diff g lmean dm f lids no_heat Tx Tp Tamb (buf_after r1) in
  forall j, (j < g_n g)%nat -> Tamb < Tx (S j) -> r_tot r2 j < r_tot r1 j.
Proof.
  intros G Hr -> r1 r2 j Hj Hlt. pose proof (ok_n g G) as Hn.
  pose proof (mcp_pos g lmean dm f false no_heat Tx Tp Tamb buf0 G Hr j Hj) as M. fold r1 in M.
  assert (E : r_ts r1 j = Tamb).
  { unfold r1; cbn [part_diff r_ts buf0 b_ainf b_ua]. unfold surface_temp, Rdiv. ring. }
  assert (A1 : r_ainf r1 j = cyl_alpha_inf Tamb Tamb (g_L g) (g_vert g) (g_rt g)).
  { rewrite <- E at 1. reflexivity. }
  destruct (ua_bounds g lmean dm f false no_heat Tx Tp Tamb buf0 G (buf0_ok g G) Hr j Hj) as [U1 [U2 _]].
  pose proof (ainf_pos g lmean dm f false no_heat Tx Tp Tamb buf0 G (buf0_ok g G) Hr j Hj) as I1.
  fold r1 in U1, U2, I1.
  assert (T2 : Tamb < r_ts r2 j <= 100).
  { change (r_ts r2 j) with (surface_temp (Tx (S j)) Tamb (g_As g) (r_ainf r1 j) (r_ua r1 j)).
    pose proof (ok_As g G) as PAs.
    destruct Hr as [HT [_ HA]]. pose proof (HT j Hj) as HTj.
    assert (0 < r_ua r1 j / (r_ainf r1 j * g_As g) <= 1).
    { split; [apply Rdiv_lt_0_compat; [lra|apply Rmult_lt_0_compat; lra]|].
      apply div_mono'; [apply Rmult_lt_0_compat; lra|lra]. }
    unfold surface_temp.
    replace ((Tx (S j) - Tamb) * r_ua r1 j / (r_ainf r1 j * g_As g)) with
      ((Tx (S j) - Tamb) * (r_ua r1 j / (r_ainf r1 j * g_As g))) by (unfold Rdiv; ring).
    set (k := r_ua r1 j / _) in *. split; nra. }
  assert (A2 : r_ainf r1 j < r_ainf r2 j).
  { rewrite A1. change (r_ainf r2 j) with (cyl_alpha_inf (r_ts r2 j) Tamb (g_L g) (g_vert g) (g_rt g)).
    destruct Hr as [_ [_ HA]]. apply cyl_alpha_warmer; try lra; [apply (ok_L g G)|apply (ok_rt g G)]. }
  assert (UA : r_ua r1 j < r_ua r2 j).
  { change (r_ua r1 j) with (ua_cyl g (r_ai r1 j) (r_ainf r1 j)).
    change (r_ua r2 j) with (ua_cyl g (r_ai r1 j) (r_ainf r2 j)).
    apply ua_cyl_increasing; try assumption.
    apply (ai_pos g lmean dm f false no_heat Tx Tp Tamb buf0 G Hr j Hj). }
  unfold r1, r2. rewrite !tot_val, !adv_val, !cond_val by lia.
  fold r1. fold r2. unfold lid_at.
  change (r_tb r2) with (r_tb r1). change (r_mcp r2) with (r_mcp r1). change (r_uap r2) with (r_uap r1).
  change (r_heat r2 j) with 0. change (r_heat r1 j) with 0.
  assert (X : forall a p q u1 u2 : R, u1 < u2 ->
    (a + (u2 + 0) * (Tamb - Tx (S j))) / r_mcp r1 j + p + q + 0 <
    (a + (u1 + 0) * (Tamb - Tx (S j))) / r_mcp r1 j + p + q + 0).
  { intros a p q u1 u2 Hu. assert ((a + (u2 + 0) * (Tamb - Tx (S j))) / r_mcp r1 j <
     (a + (u1 + 0) * (Tamb - Tx (S j))) / r_mcp r1 j); [|lra].
    unfold Rdiv. apply Rmult_lt_compat_r; [apply Rinv_0_lt_compat, M|]. nra. }
  apply X. exact UA.
Qed.

(** ** Nusselt number at the transition to turbulence *)
Lemma Rpower_cmp (x e : R) (k : nat) (c : R) : 0 < x -> 0 < c -> e * INR k = 1 -> (1 <= k)%nat ->
  (c ^ k < x -> c < Rpower x e) /\ (x < c ^ k -> Rpower x e < c).
Proof.
  intros Hx Hc E Hk.
  assert (P : Rpower x e ^ k = x).
  { rewrite <- Rpower_pow by apply exp_pos. rewrite Rpower_mult, E. apply Rpower_1, Hx. }
  assert (Q : 0 < Rpower x e) by apply exp_pos.
  split; intros H.
  - destruct (Rle_lt_dec (Rpower x e) c) as [L|L]; [|exact L]. exfalso.
    assert (Rpower x e ^ k <= c ^ k) by (apply pow_incr; lra). lra.
  - destruct (Rle_lt_dec c (Rpower x e)) as [L|L]; [|exact L]. exfalso.
    assert (c ^ k <= Rpower x e ^ k) by (apply pow_incr; lra). lra.
Qed.

Lemma beta_pos T : 5 <= T <= 100 -> 0 < beta_water T.
Proof.
  intros [H0 H1]. rewrite beta_is.
  apply (check_on_sound beta_q 5%Q 100%Q (19#1) 5%nat); [qchk|].
  split; [eapply Rle_trans; [|exact H0]; qnum|eapply Rle_trans; [exact H1|]; qnum].
Qed.

Lemma nu_drops di T : 0 < di -> 5 <= T <= 100 ->
  exists d1 d2, 0 < d1 < d2 /\ 1 <= buoyancy_nu di T d2 /\ buoyancy_nu di T d2 < buoyancy_nu di T d1.
Proof.
  intros Hd HT. pose proof (beta_pos T HT) as HB. pose proof (Pr_bounds T ltac:(lra)) as HP.
  pose proof (ny_bounds T ltac:(lra)) as HN.
  set (K := Pr_water T * 9.81 * (di / 4) ^ 3 * Rabs (beta_water T) / ny_water T ^ 2 *
            Rpower (1 + npow (0.322 / Pr_water T) (11 / 20)) (- 20 / 11)).
  assert (KP : 0 < K).
  { unfold K. apply Rmult_lt_0_compat; [|apply exp_pos]. apply Rdiv_lt_0_compat; [|apply pow_lt; lra].
    apply Rmult_lt_0_compat; [|rewrite Rabs_right; lra].
    apply Rmult_lt_0_compat; [|apply pow_lt; lra]. lra. }
  assert (V : forall d, buoyancy_nu di T d = if Rlt_dec 70000 (K * d) then 0.15 * npow (K * d) (1/3) else 0.766 * npow (K * d) 0.2).
  { intros d. unfold buoyancy_nu.
    replace (Pr_water T * 9.81 * (di / 4) ^ 3 * Rabs (beta_water T) * d / ny_water T ^ 2 *
      Rpower (1 + npow (0.322 / Pr_water T) (11 / 20)) (- 20 / 11)) with (K * d); [reflexivity|].
    unfold K, Rdiv. ring. }
  exists (70000 / K), (71000 / K).
  assert (E1 : K * (70000 / K) = 70000) by (field; lra).
  assert (E2 : K * (71000 / K) = 71000) by (field; lra).
  rewrite !V, E1, E2. destruct (Rlt_dec 70000 70000); [lra|]. destruct (Rlt_dec 70000 71000); [|lra].
  unfold npow. destruct (Req_EM_T 71000 0); [lra|]. destruct (Req_EM_T 70000 0); [lra|].
  destruct (Rpower_cmp 71000 (1/3) 3 41.5 ltac:(lra) ltac:(lra) ltac:(cbn; lra) ltac:(lia)) as [_ U].
  specialize (U ltac:(lra)).
  destruct (Rpower_cmp 71000 (1/3) 3 41 ltac:(lra) ltac:(lra) ltac:(cbn; lra) ltac:(lia)) as [W _].
  specialize (W ltac:(lra)).
  destruct (Rpower_cmp 70000 0.2 5 9.3 ltac:(lra) ltac:(lra) ltac:(cbn; lra) ltac:(lia)) as [Z _].
  specialize (Z ltac:(lra)).
  split; [|lra]. split; [apply Rdiv_lt_0_compat; lra|]. unfold Rdiv. apply Rmult_lt_compat_r; [apply Rinv_0_lt_compat, KP|lra].
Qed.
