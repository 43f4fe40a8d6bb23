(** Proofs for C189. *)
From Coq Require Import Reals Ranalysis5 List Arith ZArith Bool Lra Lia.
From Verif Require Import MFlow MWater MDiff MGeom SFlow SDiff SGeom LFlow LWater LDiff LDiff2 LDiff4 LGeom LGeom2 LAlpha LAlpha2 SInsul.
Open Scope R_scope.

(** ** Outer coefficient of a horizontal cylinder *)
Lemma hor_alpha Ts Tinf : 0 <= (Tinf + Ts) / 2 <= 100 -> - 273.15 < Tinf ->
  exists q, 0 <= q /\ forall l rt, 0 < l -> cyl_alpha_inf Ts Tinf l false rt = (0.752 / sqrt l + 0.387 * q) ^ 2 * lam_dryair ((Tinf + Ts) / 2).
Proof.
  intros HT Hi. pose proof (ny_air_bounds _ HT) as NB. set (ny := ny_dryair ((Tinf + Ts) / 2)) in *.
  set (k := Rabs (Ts - Tinf) * 9.81 * 0.708 / ((Tinf + 273.15) * ny ^ 2) * 0.3269207911296459).
  assert (Hk : 0 <= k).
  { unfold k. apply Rmult_le_pos; [|lra]. apply Rmult_le_pos.
    - pose proof (Rabs_pos (Ts - Tinf)). apply Rmult_le_pos; [|lra]. apply Rmult_le_pos; lra.
    - left. apply Rinv_0_lt_compat. apply Rmult_lt_0_compat; [lra|]. apply pow_lt. lra. }
  exists (npow k (1 / 6)). split; [apply npow_nonneg|]. intros l rt Hl.
  unfold cyl_alpha_inf. cbv zeta. fold ny.
  replace (rayleigh Ts Tinf l ny * 0.3269207911296459) with (k * l ^ 3).
  2:{ unfold k, rayleigh. field. split; lra. }
  rewrite npow_cube by assumption. set (q := npow k (1 / 6)).
  assert (S0 : 0 < sqrt l) by (apply sqrt_lt_R0; lra).
  assert (E : sqrt l * sqrt l = l) by (apply sqrt_sqrt; lra).
  set (s := sqrt l) in *. clearbody s. rewrite <- E. field. lra.
Qed.
Lemma hor_alpha_falls Ts Tinf l1 l2 rt1 rt2 : 0 <= (Tinf + Ts) / 2 <= 100 -> - 273.15 < Tinf -> 0 < l1 <= l2 ->
  cyl_alpha_inf Ts Tinf l2 false rt2 <= cyl_alpha_inf Ts Tinf l1 false rt1.
Proof.
  intros HT Hi HL. destruct (hor_alpha Ts Tinf HT Hi) as (q & Hq & E). rewrite (E l1), (E l2) by lra.
  pose proof (lam_air_bounds _ HT) as LB. apply Rmult_le_compat_r; [lra|].
  assert (S1 : 0 < sqrt l1) by (apply sqrt_lt_R0; lra). assert (S2 : sqrt l1 <= sqrt l2) by (apply sqrt_le_1; lra).
  assert (0.752 / sqrt l2 <= 0.752 / sqrt l1) by (unfold Rdiv; apply Rmult_le_compat_l; [lra|apply Rinv_le_contravar; lra]).
  assert (0 < 0.752 / sqrt l2) by (apply div_pos; lra).
  set (u := 0.752 / sqrt l2) in *. set (v := 0.752 / sqrt l1) in *. apply pow_incr. lra.
Qed.
Lemma hor_alpha_warm T1 T2 Tinf l rt : 0 <= Tinf -> Tinf <= T1 <= T2 -> T2 <= 100 -> 0 < l ->
  cyl_alpha_inf T1 Tinf l false rt <= cyl_alpha_inf T2 Tinf l false rt.
Proof.
  intros Ha H1 H2 HL. destruct (Req_dec T1 T2) as [->|N]; [lra|].
  pose proof (rayleigh_mono Tinf T1 T2 l Ha ltac:(lra) H2 HL) as RM. unfold cyl_alpha_inf. cbv zeta.
  set (r1 := rayleigh T1 _ _ _) in *. set (r2 := rayleigh T2 _ _ _) in *. clearbody r1 r2.
  pose proof (nu_ch_mono 0.752 0.3269207911296459 r1 r2 ltac:(lra) ltac:(lra) ltac:(lra)) as NM.
  pose proof (lam_air_increasing ((Tinf + T1) / 2) ((Tinf + T2) / 2) ltac:(lra) ltac:(lra) ltac:(lra)) as LI.
  pose proof (lam_air_bounds ((Tinf + T1) / 2) ltac:(lra)) as B.
  set (n1 := (0.752 + _) ^ 2) in *. set (n2 := (0.752 + 0.387 * npow (r2 * _) _) ^ 2) in *. clearbody n1 n2.
  unfold Rdiv. apply Rmult_le_compat_r; [left; apply Rinv_0_lt_compat, HL|]. apply Rmult_le_compat; lra.
Qed.

(** ** Resistances *)
Lemma ln_gap r1 r2 : 0 < r1 < r2 -> 1 - r1 / r2 < ln r2 - ln r1.
Proof.
  intros H. assert (P : 0 < r1 / r2) by (apply Rdiv_lt_0_compat; lra).
  assert (L : ln (r1 / r2) = ln r1 - ln r2) by (unfold Rdiv; rewrite ln_mult, ln_Rinv by (try apply Rinv_0_lt_compat; lra); ring).
  assert (ln r1 < ln r2) by (apply ln_increasing; lra).
  pose proof (exp_ineq1 (ln (r1 / r2)) ltac:(lra)) as E. rewrite exp_ln in E by exact P. lra.
Qed.
Definition rins (ri ro r lam : R) : R := ri * ln (r / ro) / lam.
Definition rout (ri r al : R) : R := ri / r / al.
Lemma ln_ratio r ro : 0 < ro -> 0 < r -> ln (r / ro) = ln r - ln ro.
Proof. intros. unfold Rdiv. rewrite ln_mult, ln_Rinv by (try apply Rinv_0_lt_compat; lra). ring. Qed.
Lemma rins_le ri ro r1 r2 l1 l2 : 0 < ri -> 0 < ro <= r1 -> r1 <= r2 -> 0 < l2 <= l1 -> rins ri ro r1 l1 <= rins ri ro r2 l2.
Proof.
  intros Hi Ho Hr Hl. unfold rins, Rdiv. rewrite !Rmult_assoc. apply Rmult_le_compat_l; [lra|].
  fold (r1 / ro) (r2 / ro). rewrite !ln_ratio by lra.
  assert (ln ro <= ln r1) by (destruct (Req_dec ro r1) as [->|]; [lra|left; apply ln_increasing; lra]).
  assert (ln r1 <= ln r2) by (destruct (Req_dec r1 r2) as [->|]; [lra|left; apply ln_increasing; lra]).
  apply Rmult_le_compat; try lra. left. apply Rinv_0_lt_compat. lra. apply Rinv_le_contravar; lra.
Qed.
Lemma resist ri ro r1 r2 l1 l2 al : 0 < ri -> 0 < ro <= r1 -> r1 <= r2 -> 0 < l2 <= l1 -> 0 < al -> (r1 < r2 -> l1 <= al * r1) ->
  rins ri ro r1 l1 + rout ri r1 al <= rins ri ro r2 l2 + rout ri r2 al /\
  (r1 < r2 \/ l2 < l1 /\ ro < r2 -> rins ri ro r1 l1 + rout ri r1 al < rins ri ro r2 l2 + rout ri r2 al).
Proof.
  intros Hi Ho Hr Hl Ha Hc.
  assert (M : rins ri ro r2 l1 <= rins ri ro r2 l2) by (apply rins_le; lra).
  assert (MS : l2 < l1 -> ro < r2 -> rins ri ro r2 l1 < rins ri ro r2 l2).
  { intros A B. unfold rins, Rdiv. apply Rmult_lt_compat_l.
    - apply Rmult_lt_0_compat; [lra|]. fold (r2 / ro). rewrite ln_ratio by lra. assert (ln ro < ln r2) by (apply ln_increasing; lra). lra.
    - apply Rinv_lt_contravar; [apply Rmult_lt_0_compat; lra|lra]. }
  assert (G : r1 < r2 -> rins ri ro r1 l1 + rout ri r1 al < rins ri ro r2 l1 + rout ri r2 al).
  { intro L. specialize (Hc L). pose proof (ln_gap r1 r2 ltac:(lra)) as LG. unfold rins, rout. rewrite !ln_ratio by lra.
    assert (X : 0 < 1 - r1 / r2).
    { assert (r1 / r2 < 1) by (apply Rmult_lt_reg_r with r2; [lra|]; unfold Rdiv; rewrite Rmult_assoc, Rinv_l; lra). lra. }
    assert (E1 : ri / r1 / al - ri / r2 / al = ri * ((1 - r1 / r2) / (al * r1))) by (field; lra).
    assert (E2 : ri * (ln r2 - ln ro) / l1 - ri * (ln r1 - ln ro) / l1 = ri * ((ln r2 - ln r1) / l1)) by (field; lra).
    assert (Q : (1 - r1 / r2) / (al * r1) < (ln r2 - ln r1) / l1).
    { apply Rle_lt_trans with ((1 - r1 / r2) / l1).
      - unfold Rdiv at 1 3. apply Rmult_le_compat_l; [lra|]. apply Rinv_le_contravar; lra.
      - unfold Rdiv at 1 3. apply Rmult_lt_compat_r; [apply Rinv_0_lt_compat; lra|exact LG]. }
    assert (Q2 : ri * ((1 - r1 / r2) / (al * r1)) < ri * ((ln r2 - ln r1) / l1)) by (apply Rmult_lt_compat_l; lra). lra. }
  destruct (Req_dec r1 r2) as [<-|N].
  - split; [lra|]. intros [Q|[Q1 Q2]]; [lra|]. specialize (MS Q1 Q2). lra.
  - specialize (G ltac:(lra)). split; [lra|]. intros _. lra.
Qed.
Lemma rout_le ri r a1 a2 : 0 < ri -> 0 < r -> 0 < a2 <= a1 -> rout ri r a1 <= rout ri r a2.
Proof.
  intros. unfold rout, Rdiv. apply Rmult_le_compat_l; [left; apply Rmult_lt_0_compat; [lra|apply Rinv_0_lt_compat; lra]|].
  apply Rinv_le_contravar; lra.
Qed.

(** ** One cell *)
Definition rtot (K ri ro r lam al : R) : R := K + rins ri ro r lam + rout ri r al.
Lemma cell_R (f : R -> R -> R) D K ri ro r1 r2 l1 l2 t1 t2 :
  (forall r s t, 0 < r -> 0 <= s <= t -> t <= D -> f r s <= f r t) ->
  (forall r r' t, 0 < r <= r' -> 0 <= t <= D -> f r' t <= f r t) ->
  (forall r t, 0 < r -> 0 <= t <= D -> 0 < f r t) ->
  0 <= D -> 0 < K -> 0 < ri -> 0 < ro <= r1 -> r1 <= r2 -> 0 < l2 <= l1 ->
  0 <= t1 <= D -> 0 <= t2 <= D ->
  t1 = D * rout ri r1 (f r1 t1) / rtot K ri ro r1 l1 (f r1 t1) ->
  t2 = D * rout ri r2 (f r2 t2) / rtot K ri ro r2 l2 (f r2 t2) ->
  (r1 < r2 -> l1 <= f r1 t1 * r1) ->
  rtot K ri ro r1 l1 (f r1 t1) <= rtot K ri ro r2 l2 (f r2 t2) /\
  (r1 < r2 \/ l2 < l1 /\ ro < r2 -> rtot K ri ro r1 l1 (f r1 t1) < rtot K ri ro r2 l2 (f r2 t2)).
Proof.
  intros Mt Mr Fp HD HK Hi Ho Hr Hl B1 B2 E1 E2 Hc.
  set (a1 := f r1 t1) in *. set (a2 := f r2 t2) in *.
  assert (A1 : 0 < a1) by (apply Fp; lra). assert (A2 : 0 < a2) by (apply Fp; lra).
  assert (RO : forall r a, 0 < r -> 0 < a -> 0 < rout ri r a) by (intros; unfold rout; repeat apply Rdiv_lt_0_compat; lra).
  pose proof (RO r1 a1 ltac:(lra) A1) as O1. pose proof (RO r2 a2 ltac:(lra) A2) as O2.
  assert (N1 : 0 <= rins ri ro r1 l1).
  { pose proof (rins_le ri ro ro r1 l1 l1 Hi ltac:(lra) ltac:(lra) ltac:(lra)) as Q. unfold rins at 1 in Q.
    replace (ro / ro) with 1 in Q by (field; lra). rewrite ln_1 in Q. unfold Rdiv in Q at 1. lra. }
  pose proof (rins_le ri ro r1 r2 l1 l2 Hi Ho Hr Hl) as N2.
  assert (key : rtot K ri ro r2 l2 a2 <= rtot K ri ro r1 l1 a1 -> a2 <= a1).
  { intro LE. assert (TT : t2 <= t1).
    { rewrite E1, E2. unfold rtot in *. set (i1 := rins ri ro r1 l1) in *. set (i2 := rins ri ro r2 l2) in *.
      set (o1 := rout ri r1 a1) in *. set (o2 := rout ri r2 a2) in *.
      unfold Rdiv. rewrite !Rmult_assoc. apply Rmult_le_compat_l; [exact HD|].
      apply Rmult_le_reg_r with (K + i2 + o2); [lra|]. rewrite Rmult_assoc, Rinv_l by lra. rewrite Rmult_1_r.
      apply Rmult_le_reg_r with (K + i1 + o1); [lra|].
      replace (o1 * / (K + i1 + o1) * (K + i2 + o2) * (K + i1 + o1)) with (o1 * (K + i2 + o2)) by (field; lra).
      clearbody i1 i2 o1 o2. assert (o2 <= o1) by lra. nra. }
    unfold a1, a2. apply Rle_trans with (f r2 t1); [apply Mt; lra|apply Mr; lra]. }
  destruct (resist ri ro r1 r2 l1 l2 a1 Hi Ho Hr Hl A1 Hc) as [R1 R2].
  assert (G : a2 <= a1 -> rout ri r2 a1 <= rout ri r2 a2) by (intro; apply rout_le; lra).
  unfold rtot in *. split.
  - destruct (Rle_lt_dec (K + rins ri ro r1 l1 + rout ri r1 a1) (K + rins ri ro r2 l2 + rout ri r2 a2)) as [Y|Y]; [exact Y|].
    specialize (G (key ltac:(lra))). lra.
  - intro Q. specialize (R2 Q).
    destruct (Rlt_le_dec (K + rins ri ro r1 l1 + rout ri r1 a1) (K + rins ri ro r2 l2 + rout ri r2 a2)) as [Y|Y]; [exact Y|].
    specialize (G (key ltac:(lra))). lra.
Qed.

(** ** A settled cell of a pipe *)
Definition kin (a : pipe_arg) (ai : R) : R := 1 / ai + pa_di a / 2 * ln ((pa_do a / 2) / (pa_di a / 2)) / pa_lam a.
Definition gsp_of (a : pipe_arg) : R := pa_len a / IZR (pa_gp a).
Lemma pipe_ua a p g ai al : pipe_new a p = Some g ->
  ua_cyl g ai al = PI * pa_di a * gsp_of a / rtot (kin a ai) (pa_di a / 2) (pa_do a / 2) (outer_radius a) (pa_lins a) al.
Proof.
  intros H. destruct (pipe_new_inv a p g H) as [_ ->]. unfold ua_cyl, rtot, kin, rins, rout, gsp_of, outer_radius. reflexivity.
Qed.
Lemma kin_pos a ai : pipe_dims a -> 0 < pa_lam a -> 0 < ai -> 0 < kin a ai.
Proof.
  intros [Hd _] Hl Ha. unfold kin. assert (0 < 1 / ai) by (apply Rdiv_lt_0_compat; lra).
  assert (0 < ln (pa_do a / 2 / (pa_di a / 2))).
  { rewrite <- ln_1. apply ln_increasing; [lra|]. apply Rmult_lt_reg_r with (pa_di a / 2); [lra|]. unfold Rdiv at 2. rewrite Rmult_assoc, Rinv_l; lra. }
  assert (0 < pa_di a / 2 * ln (pa_do a / 2 / (pa_di a / 2)) / pa_lam a) by (apply Rdiv_lt_0_compat; [apply Rmult_lt_0_compat; lra|lra]). lra.
Qed.
Lemma gsp_pos a p g : pipe_new a p = Some g -> 0 < gsp_of a.
Proof. intros H. destruct (pipe_new_inv a p g H) as [(A1 & A2 & _) _]. apply Rdiv_lt_0_compat; [lra|]. apply IZR_lt. exact A2. Qed.

(** Surface excess of a settled cell. *)
Lemma settled_cell a p g io f Tx Tp Tamb b j : pipe_new a p = Some g -> pipe_dims a -> solid (pa_cp a) (pa_rho a) (pa_lam a) ->
  0 < pa_lins a -> (2 <= pa_gp a)%Z -> ports_ok (Z.to_nat (pa_gp a)) p -> (j < Z.to_nat (pa_gp a))%nat ->
  0 <= Tamb <= Tx (S j) -> Tx (S j) <= 100 -> buf_ok g b ->
  settled (pipe_diff g io f Tx Tp Tamb b) b j ->
  let D := Tx (S j) - Tamb in let K := kin a (r_ai (pipe_diff g io f Tx Tp Tamb b) j) in
  let r := outer_radius a in
  let al t := cyl_alpha_inf (Tamb + t) Tamb (r * PI) false 1 in
  exists t, 0 <= t <= D /\ r_ainf (pipe_diff g io f Tx Tp Tamb b) j = al t /\
    t = D * rout (pa_di a / 2) r (al t) / rtot K (pa_di a / 2) (pa_do a / 2) r (pa_lins a) (al t) /\
    r_ua (pipe_diff g io f Tx Tp Tamb b) j =
      PI * pa_di a * gsp_of a / rtot K (pa_di a / 2) (pa_do a / 2) r (pa_lins a) (al t).
Proof.
  intros Hn Hd Hs Hl H2 Hp Hj HT HT2 Bk [S1 S2]. cbv zeta.
  pose proof (pipe_geo_ok a p g Hn Hd Hs Hl H2 Hp) as G.
  assert (En : g_n g = Z.to_nat (pa_gp a)) by (destruct (pipe_new_inv a p g Hn) as [_ ->]; reflexivity).
  destruct (Bk j ltac:(rewrite En; exact Hj)) as [B1 B2].
  destruct (between (Tx (S j)) Tamb (g_As g) (b_ainf b j) (b_ua b j) B1 (ok_As g G) B2) as (k & Hk & Ek).
  set (rr := pipe_diff g io f Tx Tp Tamb b) in *.
  assert (Ea : r_ainf rr j = cyl_alpha_inf (surface_temp (Tx (S j)) Tamb (g_As g) (b_ainf b j) (b_ua b j)) Tamb (g_L g) (g_vert g) (g_rt g)) by reflexivity.
  assert (Eu : r_ua rr j = ua_cyl g (r_ai rr j) (r_ainf rr j)) by reflexivity.
  set (ai := r_ai rr j) in *.
  assert (Pai : 0 < ai) by (apply (alpha_in_pos io (Tx (S j)) (g_A g) (g_di g) (if Rlt_dec io 0 then g_x g (g_n g - 1 - j)%nat else g_x g j)); [lra|apply (ok_di g G)]).
  exists (surface_temp (Tx (S j)) Tamb (g_As g) (b_ainf b j) (b_ua b j) - Tamb).
  set (Ts := surface_temp _ _ _ _ _) in *.
  assert (RT : 0 <= Ts - Tamb <= Tx (S j) - Tamb) by (rewrite Ek; nra).
  assert (EL : g_L g = outer_radius a * PI /\ g_vert g = false).
  { destruct (pipe_new_inv a p g Hn) as [_ ->]. cbn. unfold outer_radius. split; [field|reflexivity]. }
  destruct EL as [EL Ev].
  assert (E3 : cyl_alpha_inf Ts Tamb (g_L g) (g_vert g) (g_rt g) = cyl_alpha_inf (Tamb + (Ts - Tamb)) Tamb (outer_radius a * PI) false 1).
  { replace (Tamb + (Ts - Tamb)) with Ts by ring. rewrite EL, Ev. reflexivity. }
  rewrite <- E3. rewrite <- Ea.
  split; [exact RT|]. split; [reflexivity|]. rewrite <- (pipe_ua a p g ai (r_ainf rr j) Hn), <- Eu.
  split; [|reflexivity].
  assert (Pr : 0 < r_ainf rr j) by (rewrite S1; exact B1).
  unfold Ts, surface_temp. rewrite <- S1, <- S2, Eu. rewrite (pipe_ua a p g ai (r_ainf rr j) Hn).
  assert (EA : g_As g = PI * outer_radius a * 2 * gsp_of a) by (destruct (pipe_new_inv a p g Hn) as [_ ->]; reflexivity).
  rewrite EA. pose proof (gsp_pos a p g Hn) as Pg.
  assert (Po : 0 < outer_radius a).
  { unfold outer_radius. destruct Hd as [Hd _]. destruct (pipe_new_inv a p g Hn) as [(_ & _ & A3 & _) _]. lra. }
  pose proof (ua_cyl_bounds g ai (r_ainf rr j) G Pai Pr) as [UB _]. rewrite (pipe_ua a p g ai (r_ainf rr j) Hn) in UB.
  pose proof PI_RGT_0 as HP.
  assert (RR : rtot (kin a ai) (pa_di a / 2) (pa_do a / 2) (outer_radius a) (pa_lins a) (r_ainf rr j) <> 0).
  { intro Z. rewrite Z in UB. unfold Rdiv in UB. rewrite Rinv_0 in UB. lra. }
  unfold rout. set (Rt := rtot _ _ _ _ _ _) in *. clearbody Rt. set (o := outer_radius a) in *. set (al := r_ainf rr j) in *.
  clearbody o al. set (gs := gsp_of a) in *. clearbody gs. field. lra.
Qed.

Lemma settled_less a a' p p' g g' io f f' Tx Tx' Tp Tp' Tamb b b' j : reinsulated a a' ->
  pipe_new a p = Some g -> pipe_new a' p' = Some g' -> pipe_dims a -> solid (pa_cp a) (pa_rho a) (pa_lam a) ->
  (2 <= pa_gp a)%Z -> ports_ok (Z.to_nat (pa_gp a)) p -> ports_ok (Z.to_nat (pa_gp a)) p' -> (j < Z.to_nat (pa_gp a))%nat ->
  0 <= Tamb <= Tx (S j) -> Tx (S j) <= 100 -> Tx' (S j) = Tx (S j) -> buf_ok g b -> buf_ok g' b' ->
  let r := pipe_diff g io f Tx Tp Tamb b in let r' := pipe_diff g' io f' Tx' Tp' Tamb b' in
  settled r b j -> settled r' b' j -> (pa_sins a < pa_sins a' -> pa_lins a <= r_ainf r j * outer_radius a) ->
  r_ua r' j <= r_ua r j /\
  (pa_sins a < pa_sins a' \/ pa_lins a' < pa_lins a /\ 0 < pa_sins a' -> r_ua r' j < r_ua r j).
Proof.
  intros (I1 & I2 & I3 & I4 & I5 & I6 & I7 & I8 & I9 & I10) Hn Hn' Hd Hs H2 Hp Hp' Hj HT HT2 ET Bk Bk'. cbv zeta.
  intros St St' Hc.
  assert (X : r_ai (pipe_diff g' io f' Tx' Tp' Tamb b') j = r_ai (pipe_diff g io f Tx Tp Tamb b) j).
  { change (alpha_i g' (fun _ => io) (fun i => Tx' (S i)) j = alpha_i g (fun _ => io) (fun i => Tx (S i)) j).
    unfold alpha_i. rewrite ET. destruct (pipe_new_inv a p g Hn) as [_ ->]. destruct (pipe_new_inv a' p' g' Hn') as [_ ->].
    cbn [g_A g_di g_x g_n]. unfold pipe_dist. rewrite I1, I2, I3, I5. reflexivity. }
  destruct (settled_cell a p g io f Tx Tp Tamb b j Hn Hd Hs ltac:(lra) H2 Hp Hj HT HT2 Bk St) as (t & Bt & Ea & Et & Eu).
  assert (Hd' : pipe_dims a') by (unfold pipe_dims in *; rewrite I3, I4, I5; exact Hd).
  assert (Hs' : solid (pa_cp a') (pa_rho a') (pa_lam a')) by (rewrite I6, I7, I8; exact Hs).
  destruct (settled_cell a' p' g' io f' Tx' Tp' Tamb b' j Hn' Hd' Hs' ltac:(lra) ltac:(rewrite I2; exact H2) ltac:(rewrite I2; exact Hp')
    ltac:(rewrite I2; exact Hj) ltac:(rewrite ET; exact HT) ltac:(rewrite ET; exact HT2) Bk' St') as (t' & Bt' & Ea' & Et' & Eu').
  pose proof (gsp_pos a p g Hn) as Pg.
  assert (Eg : gsp_of a' = gsp_of a) by (unfold gsp_of; rewrite I1, I2; reflexivity).
  assert (Pai : 0 < r_ai (pipe_diff g io f Tx Tp Tamb b) j).
  { apply (alpha_in_pos io (Tx (S j)) (g_A g) (g_di g) (if Rlt_dec io 0 then g_x g (g_n g - 1 - j)%nat else g_x g j)); [lra|].
    destruct (pipe_new_inv a p g Hn) as [_ ->]. cbn. apply Hd. }
  rewrite Ea in Hc. rewrite Eu, Eu'. rewrite X, ET in *.
  set (K := kin a (r_ai (pipe_diff g io f Tx Tp Tamb b) j)) in *.
  assert (EK : kin a' (r_ai (pipe_diff g io f Tx Tp Tamb b) j) = K) by (unfold K, kin; rewrite I3, I4, I8; reflexivity).
  rewrite EK in *. rewrite Eg, I3, I4 in *. set (D := Tx (S j) - Tamb) in *.
  assert (HK : 0 < K) by (apply kin_pos; [exact Hd|apply Hs|exact Pai]).
  assert (A3 : 0 <= pa_sins a) by (destruct (pipe_new_inv a p g Hn) as [(_ & _ & A3 & _) _]; exact A3).
  destruct Hd as [Hdd HAA]. pose proof PI_RGT_0 as HP.
  assert (HO : outer_radius a = pa_do a / 2 + pa_sins a) by reflexivity.
  assert (HO' : outer_radius a' = pa_do a / 2 + pa_sins a') by (unfold outer_radius; rewrite I4; reflexivity).
  assert (Et0 := Et). assert (Et0' := Et').
  destruct (cell_R (fun r t => cyl_alpha_inf (Tamb + t) Tamb (r * PI) false 1) D K (pa_di a / 2) (pa_do a / 2) (outer_radius a) (outer_radius a')
    (pa_lins a) (pa_lins a') t t') as [C1 C2]; try lra; try assumption.
  - intros r s u Hr Hsu Hu. apply hor_alpha_warm; try (unfold D in *; lra). apply Rmult_lt_0_compat; lra.
  - intros r r1 u Hr Hu. apply hor_alpha_falls; try (unfold D in *; lra). split; [apply Rmult_lt_0_compat; lra|apply Rmult_le_compat_r; lra].
  - intros r u Hr Hu. apply cyl_alpha_pos; try (unfold D in *; lra). apply Rmult_lt_0_compat; lra.
  - cbv beta in C1, C2.
    set (R1 := rtot K _ _ (outer_radius a) _ _) in *. set (R2 := rtot K _ _ (outer_radius a') _ _) in *.
    assert (P1 : 0 < R1).
    { unfold R1, rtot. pose proof (rins_le (pa_di a / 2) (pa_do a / 2) (pa_do a / 2) (outer_radius a) (pa_lins a) (pa_lins a) ltac:(lra) ltac:(lra) ltac:(lra) ltac:(lra)) as Q.
      unfold rins at 1 in Q. replace (pa_do a / 2 / (pa_do a / 2)) with 1 in Q by (field; lra). rewrite ln_1 in Q. unfold Rdiv in Q at 1.
      assert (0 < rout (pa_di a / 2) (outer_radius a) (cyl_alpha_inf (Tamb + t) Tamb (outer_radius a * PI) false 1)).
      { unfold rout. apply Rdiv_lt_0_compat; [apply Rdiv_lt_0_compat; lra|]. apply cyl_alpha_pos; try (unfold D in *; lra). apply Rmult_lt_0_compat; lra. }
      lra. }
    assert (PA : 0 < PI * pa_di a * gsp_of a) by (apply Rmult_lt_0_compat; [apply Rmult_lt_0_compat|]; lra).
    clearbody R1 R2. split.
    + unfold Rdiv. apply Rmult_le_compat_l; [lra|]. apply Rinv_le_contravar; lra.
    + intro Q. assert (Q' : R1 < R2) by (apply C2; destruct Q as [Q|[Q1 Q2]]; [left; lra|right; split; lra]).
      unfold Rdiv. apply Rmult_lt_compat_l; [lra|]. apply Rinv_lt_contravar; [apply Rmult_lt_0_compat; lra|exact Q'].
Qed.

(** ** Every cell settles *)
Lemma npow_sixth x : 0 <= x -> npow x (1 / 6) = sqrt (cbrt_abs x).
Proof.
  intros Hx. unfold cbrt_abs. rewrite Rabs_pos_eq by exact Hx. unfold npow. destruct (Req_EM_T x 0) as [E|N]; [rewrite sqrt_0; reflexivity|].
  rewrite <- Rpower_sqrt by apply exp_pos. rewrite Rpower_mult. f_equal. field.
Qed.
Definition al_of (Tamb L t : R) : R := cyl_alpha_inf (Tamb + t) Tamb L false 1.
Lemma al_cont Tamb L t : 0 <= Tamb -> 0 <= t -> Tamb + t <= 100 -> 0 < L -> continuity_pt (al_of Tamb L) t.
Proof.
  intros HT Ht HU HL.
  set (m := fun y => (Tamb + (Tamb + y)) * / 2).
  assert (Cm : continuity_pt m t) by (apply mul_cont; [apply add_cont; [apply const_cont|apply add_cont; [apply const_cont|apply id_cont]]|apply const_cont]).
  assert (Cny : continuity_pt (fun y => ny_dryair (m y)) t).
  { unfold ny_dryair. apply add_cont; [apply add_cont; [apply const_cont|apply mul_cont; [apply const_cont|exact Cm]]|apply mul_cont; [apply const_cont|apply pow_cont, Cm]]. }
  assert (Clam : continuity_pt (fun y => lam_dryair (m y)) t).
  { unfold lam_dryair. unfold Rminus. apply add_cont; [apply add_cont; [apply const_cont|apply mul_cont; [apply const_cont|exact Cm]]|].
    apply (continuity_pt_opp (fun y => 4.2099567099572201e-08 * m y ^ 2)). apply mul_cont; [apply const_cont|apply pow_cont, Cm]. }
  pose proof (ny_air_bounds (m t) ltac:(unfold m; lra)) as NB.
  set (ra := fun y => Rabs (Tamb + y - Tamb) * 9.81 * L ^ 3 * 0.708 * / ((Tamb + 273.15) * ny_dryair (m y) ^ 2) * 0.3269207911296459).
  assert (Cra : continuity_pt ra t).
  { unfold ra. apply mul_cont; [|apply const_cont]. apply mul_cont.
    - apply mul_cont; [|apply const_cont]. apply mul_cont; [|apply const_cont]. apply mul_cont; [|apply const_cont].
      apply (comp_cont (fun y => Tamb + y - Tamb) Rabs).
      + apply add_cont; [apply add_cont; [apply const_cont|apply id_cont]|apply const_cont].
      + apply Rcontinuity_abs.
    - apply inv_cont; [apply mul_cont; [apply const_cont|apply pow_cont, Cny]|].
      assert (0 < ny_dryair (m t) ^ 2) by (apply pow_lt; lra). apply Rgt_not_eq. apply Rmult_lt_0_compat; lra. }
  assert (Pra : forall y, 0 <= ra y).
  { intro y. unfold ra. apply Rmult_le_pos; [|lra]. apply Rmult_le_pos.
    - apply Rmult_le_pos; [|lra]. apply Rmult_le_pos; [|apply pow_le; lra]. apply Rmult_le_pos; [apply Rabs_pos|lra].
    - destruct (Req_dec (ny_dryair (m y)) 0) as [Z|N].
      + rewrite Z. replace ((Tamb + 273.15) * 0 ^ 2) with 0 by ring. rewrite Rinv_0. lra.
      + left. apply Rinv_0_lt_compat. apply Rmult_lt_0_compat; [lra|]. rewrite <- Rsqr_pow2. apply Rsqr_pos_lt, N. }
  assert (E : forall y, al_of Tamb L y = (0.752 + 0.387 * sqrt (cbrt_abs (ra y))) ^ 2 * lam_dryair (m y) * / L).
  { intro y. unfold al_of, cyl_alpha_inf, rayleigh. cbv zeta. change ((Tamb + (Tamb + y)) / 2) with (m y).
    fold (Rdiv (Rabs (Tamb + y - Tamb) * 9.81 * L ^ 3 * 0.708) ((Tamb + 273.15) * ny_dryair (m y) ^ 2)).
    change (Rabs (Tamb + y - Tamb) * 9.81 * L ^ 3 * 0.708 / ((Tamb + 273.15) * ny_dryair (m y) ^ 2) * 0.3269207911296459) with (ra y).
    rewrite npow_sixth by apply Pra. reflexivity. }
  assert (CC : continuity_pt (fun y => (0.752 + 0.387 * sqrt (cbrt_abs (ra y))) ^ 2 * lam_dryair (m y) * / L) t).
  { apply mul_cont; [|apply const_cont]. apply mul_cont; [|exact Clam]. apply pow_cont. apply add_cont; [apply const_cont|].
    apply mul_cont; [apply const_cont|]. apply (sqrt_cont (fun y => cbrt_abs (ra y))).
    - apply (comp_cont ra cbrt_abs t Cra). apply cbrt_abs_cont.
    - unfold cbrt_abs. apply npow_nonneg. }
  intros eps He. destruct (CC eps He) as (dl & Hdl & Hd). exists dl. split; [exact Hdl|]. intros y Hy. rewrite !E. apply Hd. exact Hy.
Qed.
Lemma fix_point Tamb L D rin c : 0 <= Tamb -> 0 <= D -> Tamb + D <= 100 -> 0 < L -> 0 < rin -> 0 < c ->
  exists t, 0 <= t <= D /\ t * (rin * al_of Tamb L t + c) = D * c.
Proof.
  intros HT HD HU HL Hr Hc. destruct (Req_dec D 0) as [->|N]; [exists 0; split; [lra|ring]|].
  assert (PA : forall t, 0 <= t <= D -> 0 < al_of Tamb L t).
  { intros t Ht. apply cyl_alpha_pos; lra. }
  destruct (IVT_interv (fun t => t * (rin * al_of Tamb L t + c) - D * c) 0 D) as (t & Bt & Et).
  - intros x Hx. apply add_cont; [|apply const_cont]. apply mul_cont; [apply id_cont|]. apply add_cont; [|apply const_cont].
    apply mul_cont; [apply const_cont|]. apply al_cont; lra.
  - lra.
  - assert (0 < D * c) by (apply Rmult_lt_0_compat; lra). lra.
  - specialize (PA D ltac:(lra)). assert (0 < D * (rin * al_of Tamb L D)) by (apply Rmult_lt_0_compat; [lra|apply Rmult_lt_0_compat; lra]). lra.
  - exists t. split; [exact Bt|]. lra.
Qed.

Lemma settles a p g io f Tx Tp Tamb j : pipe_new a p = Some g -> pipe_dims a -> solid (pa_cp a) (pa_rho a) (pa_lam a) ->
  0 < pa_lins a -> (2 <= pa_gp a)%Z -> ports_ok (Z.to_nat (pa_gp a)) p -> (j < Z.to_nat (pa_gp a))%nat ->
  0 <= Tamb <= Tx (S j) -> Tx (S j) <= 100 ->
  exists b, buf_ok g b /\ settled (pipe_diff g io f Tx Tp Tamb b) b j.
Proof.
  intros Hn Hd Hs Hl H2 Hp Hj HT HT2.
  pose proof (pipe_geo_ok a p g Hn Hd Hs Hl H2 Hp) as G.
  set (ai := alpha_i g (fun _ => io) (fun i => Tx (S i)) j).
  assert (Pai : 0 < ai) by (apply alpha_in_pos; [lra|apply (ok_di g G)]).
  set (rin := 1 / ai + g_rlw g / g_lw g + g_rli g / g_li g).
  assert (Pr : 0 < rin).
  { unfold rin. destruct G. assert (0 < 1 / ai) by (apply Rdiv_lt_0_compat; lra).
    assert (0 <= g_rlw g / g_lw g) by (apply Rmult_le_pos; [lra|apply Rlt_le, Rinv_0_lt_compat; lra]).
    assert (0 <= g_rli g / g_li g) by (apply Rmult_le_pos; [lra|apply Rlt_le, Rinv_0_lt_compat; lra]). lra. }
  destruct (fix_point Tamb (g_L g) (Tx (S j) - Tamb) rin (g_rr g)) as (t & Bt & Et);
    try lra; try apply (ok_L g G); try exact Pr; try apply (ok_rr g G).
  assert (Pa : 0 < al_of Tamb (g_L g) t) by (apply cyl_alpha_pos; [lra|apply (ok_L g G)|lra]).
  set (al := al_of Tamb (g_L g) t) in *.
  exists {| b_ainf := fun _ => al; b_ua := fun _ => ua_cyl g ai al |}.
  pose proof (ua_cyl_bounds g ai al G Pai Pa) as (U1 & U2 & _).
  split; [intros i _; cbn; split; [exact Pa|lra]|].
  assert (Ts : surface_temp (Tx (S j)) Tamb (g_As g) al (ua_cyl g ai al) = Tamb + t).
  { unfold surface_temp, ua_cyl. fold rin. pose proof (ok_rr g G) as Prr. pose proof (ok_As g G) as PAs. rewrite (ok_AA g G).
    assert (Q : 0 < rin * al + g_rr g) by (assert (0 < rin * al) by (apply Rmult_lt_0_compat; lra); lra).
    assert (E : t = (Tx (S j) - Tamb) * g_rr g / (rin * al + g_rr g)) by (apply Rmult_eq_reg_r with (rin * al + g_rr g); [rewrite Et; field; lra|lra]).
    rewrite E. clear E Et. clearbody al rin. field. repeat split; try lra.
     }
  assert (Ea : r_ainf (pipe_diff g io f Tx Tp Tamb {| b_ainf := fun _ => al; b_ua := fun _ => ua_cyl g ai al |}) j = al).
  { change (cyl_alpha_inf (surface_temp (Tx (S j)) Tamb (g_As g) al (ua_cyl g ai al)) Tamb (g_L g) (g_vert g) (g_rt g) = al).
    rewrite Ts. assert (Ev : g_vert g = false) by (destruct (pipe_new_inv a p g Hn) as [_ ->]; reflexivity). rewrite Ev. reflexivity. }
  split; [exact Ea|].
  change (ua_cyl g ai (r_ainf (pipe_diff g io f Tx Tp Tamb {| b_ainf := fun _ => al; b_ua := fun _ => ua_cyl g ai al |}) j) = ua_cyl g ai al).
  rewrite Ea. reflexivity.
Qed.
