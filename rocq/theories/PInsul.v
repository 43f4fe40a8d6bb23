(** C189: insulation keeps heat in a pipe. *)
From Coq Require Import Reals List Arith ZArith Bool Lra Lia.
From Verif Require Import MFlow MWater MDiff MGeom SFlow SDiff SGeom LFlow LWater LDiff2 LGeom SInsul LInsul LInsul2 SSurf LSurf LInsul3.
Open Scope R_scope.

(** The loss of a cell that is not colder than its surroundings settles at exactly one value. *)
Theorem C189_settles : forall a p g io f Tx Tp Tamb j, pipe_new a p = Some g -> pipe_dims a ->
  solid (pa_cp a) (pa_rho a) (pa_lam a) -> 0 < pa_lins a -> (2 <= pa_gp a)%Z -> ports_ok (Z.to_nat (pa_gp a)) p ->
  (j < Z.to_nat (pa_gp a))%nat -> 0 <= Tamb <= Tx (S j) -> Tx (S j) <= 100 ->
  (exists b, buf_ok g b /\ settled (pipe_diff g io f Tx Tp Tamb b) b j) /\
  (forall b b', buf_ok g b -> buf_ok g b' -> settled (pipe_diff g io f Tx Tp Tamb b) b j ->
     settled (pipe_diff g io f Tx Tp Tamb b') b' j -> b_ua b' j = b_ua b j).
Proof.
  intros a p g io f Tx Tp Tamb j Hn Hd Hs Hl H2 Hp Hj HT HT2. split; [eapply settles; eassumption|].
  intros b b' Bk Bk' St St'.
  assert (I : reinsulated a a) by (unfold reinsulated; repeat split; lra).
  destruct (settled_less a a p p g g io f f Tx Tx Tp Tp Tamb b b' j I Hn Hn Hd Hs H2 Hp Hp Hj HT HT2 eq_refl Bk Bk' St St' ltac:(intro; lra)) as [A _].
  destruct (settled_less a a p p g g io f f Tx Tx Tp Tp Tamb b' b j I Hn Hn Hd Hs H2 Hp Hp Hj HT HT2 eq_refl Bk' Bk St' St ltac:(intro; lra)) as [B _].
  destruct St as [_ <-]. destruct St' as [_ <-]. lra.
Qed.
Print Assumptions C189_settles.

(** More insulation, once thicker than the critical radius, and a better one of the same thickness keep more heat in the pipe. *)
Theorem C189_insulation : forall a a' p p' g g' io f f' Tx Tx' Tp Tp' Tamb b b' j, reinsulated a a' ->
  pipe_new a p = Some g -> pipe_new a' p' = Some g' -> pipe_dims a -> solid (pa_cp a) (pa_rho a) (pa_lam a) ->
  (2 <= pa_gp a)%Z -> ports_ok (Z.to_nat (pa_gp a)) p -> ports_ok (Z.to_nat (pa_gp a)) p' -> (j < Z.to_nat (pa_gp a))%nat ->
  0 <= Tamb < Tx (S j) -> Tx (S j) <= 100 -> Tx' (S j) = Tx (S j) -> buf_ok g b -> buf_ok g' b' ->
  let r := pipe_diff g io f Tx Tp Tamb b in let r' := pipe_diff g' io f' Tx' Tp' Tamb b' in
  settled r b j -> settled r' b' j ->
  (pa_sins a < pa_sins a' -> pa_lins a / r_ainf r j <= outer_radius a) ->
  0 < r_ua r' j * (Tx' (S j) - Tamb) <= r_ua r j * (Tx (S j) - Tamb) /\
  (pa_sins a < pa_sins a' \/ pa_lins a' < pa_lins a /\ 0 < pa_sins a' ->
   r_ua r' j * (Tx' (S j) - Tamb) < r_ua r j * (Tx (S j) - Tamb)).
Proof.
  intros a a' p p' g g' io f f' Tx Tx' Tp Tp' Tamb b b' j I Hn Hn' Hd Hs H2 Hp Hp' Hj HT HT2 ET Bk Bk' r r' St St' Hc.
  assert (Pa : 0 < r_ainf r j).
  { destruct St as [-> _]. apply (Bk j). destruct (pipe_new_inv a p g Hn) as [_ ->]. exact Hj. }
  assert (Hc' : pa_sins a < pa_sins a' -> pa_lins a <= r_ainf r j * outer_radius a).
  { intro Q. specialize (Hc Q). apply Rmult_le_reg_r with (/ r_ainf r j); [apply Rinv_0_lt_compat, Pa|].
    replace (r_ainf r j * outer_radius a * / r_ainf r j) with (outer_radius a) by (field; lra). exact Hc. }
  destruct (settled_less a a' p p' g g' io f f' Tx Tx' Tp Tp' Tamb b b' j I Hn Hn' Hd Hs H2 Hp Hp' Hj ltac:(lra) HT2 ET Bk Bk' St St' Hc') as [A B].
  fold r r' in A, B.
  assert (Pu : 0 < r_ua r' j).
  { destruct I as (I1 & I2 & I3 & I4 & I5 & I6 & I7 & I8 & I9 & I10).
    assert (G : geo_ok g').
    { apply (pipe_geo_ok a' p' g' Hn'); unfold pipe_dims, solid in *; rewrite ?I2, ?I3, ?I4, ?I5, ?I6, ?I7, ?I8; try assumption; try lra. }
    assert (Pa' : 0 < r_ainf r' j).
    { destruct St' as [-> _]. apply (Bk' j). destruct (pipe_new_inv a' p' g' Hn') as [_ ->]. cbn. rewrite I2. exact Hj. }
    change (0 < ua_cyl g' (r_ai r' j) (r_ainf r' j)). apply ua_cyl_bounds; [exact G| |exact Pa'].
    change (0 < alpha_in io (Tx' (S j)) (g_A g') (g_di g') (if Rlt_dec io 0 then g_x g' (g_n g' - 1 - j)%nat else g_x g' j)).
    apply alpha_in_pos; [rewrite ET; lra|apply (ok_di g' G)]. }
  rewrite ET. split; [split; [apply Rmult_lt_0_compat; lra|apply Rmult_le_compat_r; lra]|].
  intro Q. apply Rmult_lt_compat_r; [lra|]. exact (B Q).
Qed.
Print Assumptions C189_insulation.

(** Likewise for storages. *)
Theorem C189_tes : forall a a' p g g' io f Tx Tx' Tp Tp' Tamb b b' j, tes_reinsulated a a' ->
  tes_new a p = Some g -> tes_new a' p = Some g' -> solid (ta_cp a) (ta_rho a) (ta_lam a) ->
  0 < ta_vol a -> 2 * ta_shell a < ta_do a -> ports_ok (Z.to_nat (ta_gp a)) p -> (j < Z.to_nat (ta_gp a))%nat ->
  0 <= Tamb < Tx (S j) -> Tx (S j) <= 100 -> Tx' (S j) = Tx (S j) -> buf_ok g b -> buf_ok g' b' ->
  let r := tes_diff g io f Tx Tp Tamb b in let r' := tes_diff g' io f Tx' Tp' Tamb b' in
  settled r b j -> settled r' b' j ->
  (ta_sins a < ta_sins a' -> ta_lins a / r_ainf r j <= ta_do a / 2 + ta_sins a) ->
  0 < r_ua r' j * (Tx' (S j) - Tamb) <= r_ua r j * (Tx (S j) - Tamb) /\
  (ta_sins a < ta_sins a' \/ ta_lins a' < ta_lins a /\ 0 < ta_sins a' ->
   r_ua r' j * (Tx' (S j) - Tamb) < r_ua r j * (Tx (S j) - Tamb)).
Proof.
  intros a a' p g g' io f Tx Tx' Tp Tp' Tamb b b' j I Hn Hn' Hs Hv Hd Hp Hj HT HT2 ET Bk Bk' r r' St St' Hc.
  destruct (tes_settled_less a a' p g g' io f Tx Tx' Tp Tp' Tamb b b' j I Hn Hn' Hs Hv Hd Hp Hj HT HT2 ET Bk Bk' St St' Hc) as [A B].
  fold r r' in A, B. rewrite ET. split; [split; [apply Rmult_lt_0_compat; lra|apply Rmult_le_compat_r; lra]|].
  intro Q. apply Rmult_lt_compat_r; [lra|]. exact (B Q).
Qed.
Print Assumptions C189_tes.

(** Below the critical radius, a jacket makes a pipe lose more: 9 mm around a tube of 2 mm, with the conductivity of polyethylene. *)
Theorem C189_thin : exists a a' g g', reinsulated a a' /\ pa_sins a < pa_sins a' /\
  pipe_new a tube_ports = Some g /\ pipe_new a' tube_ports = Some g' /\
  pipe_dims a /\ solid (pa_cp a) (pa_rho a) (pa_lam a) /\
  forall f f' Tx Tp, Tx 1%nat = 80 -> forall b b', buf_ok g b -> buf_ok g' b' ->
  settled (pipe_diff g 0 f Tx Tp 20 b) b 0%nat -> settled (pipe_diff g' 0 f' Tx Tp 20 b') b' 0%nat ->
  b_ua b 0%nat < b_ua b' 0%nat.
Proof.
  destruct (proj2 (pipe_new_iff (tube 0) tube_ports)) as [g Hg]; [unfold pipe_acc; cbn; repeat split; try lra; lia|].
  destruct (proj2 (pipe_new_iff (tube 0.009) tube_ports)) as [g' Hg']; [unfold pipe_acc; cbn; repeat split; try lra; lia|].
  exists (tube 0), (tube 0.009), g, g'.
  split; [unfold reinsulated; cbn; repeat split; lra|]. split; [cbn; lra|]. split; [exact Hg|]. split; [exact Hg'|].
  split; [unfold pipe_dims; cbn; lra|]. split; [unfold solid; cbn; lra|].
  intros f f' Tx Tp HT b b' Bk Bk' St St'.
  pose proof (tube_worse g g' f f' Tx Tp Tp b b' Hg Hg' HT Bk Bk' St St') as Q. cbv zeta in Q.
  destruct St as [_ <-]. destruct St' as [_ <-]. exact Q.
Qed.
Print Assumptions C189_thin.


(** A pipe DN 50, water at rest: 20 mm of insulation, and 50 mm of a better one. *)
Example C189_ex : exists g g' b b' f Tx Tp,
  reinsulated (dn50 0.02 0.035) (dn50 0.05 0.03) /\
  pipe_new (dn50 0.02 0.035) dn50_ports = Some g /\ pipe_new (dn50 0.05 0.03) dn50_ports = Some g' /\
  ports_ok 5 dn50_ports /\ Tx 3%nat = 70 /\ buf_ok g b /\ buf_ok g' b' /\
  let r := pipe_diff g 0 f Tx Tp 15 b in let r' := pipe_diff g' 0 f Tx Tp 15 b' in
  settled r b 2%nat /\ settled r' b' 2%nat /\
  pa_lins (dn50 0.02 0.035) / r_ainf r 2%nat <= outer_radius (dn50 0.02 0.035) /\
  r_ua r' 2%nat * (70 - 15) < r_ua r 2%nat * (70 - 15).
Proof.
  destruct (proj2 (pipe_new_iff (dn50 0.02 0.035) dn50_ports)) as [g Hg]; [unfold pipe_acc; cbn; repeat split; try lra; lia|].
  destruct (proj2 (pipe_new_iff (dn50 0.05 0.03) dn50_ports)) as [g' Hg']; [unfold pipe_acc; cbn; repeat split; try lra; lia|].
  assert (Po : ports_ok 5 dn50_ports) by (split; [intros [|i] _; cbn; lia|intro i; cbn; lra]).
  set (fl := {| f_top := fun _ => 0; f_bot := fun _ => 0; f_port := fun _ => 0 |}).
  destruct (settles (dn50 0.02 0.035) dn50_ports g 0 fl (fun _ => 70) (fun _ => 70) 15 2%nat Hg) as (b & Bk & St);
    try (unfold pipe_dims, solid; cbn; lra); [cbn; lia|exact Po|cbn; lia|].
  destruct (settles (dn50 0.05 0.03) dn50_ports g' 0 fl (fun _ => 70) (fun _ => 70) 15 2%nat Hg') as (b' & Bk' & St');
    try (unfold pipe_dims, solid; cbn; lra); [cbn; lia|exact Po|cbn; lia|].
  exists g, g', b, b', fl, (fun _ => 70), (fun _ => 70).
  assert (I : reinsulated (dn50 0.02 0.035) (dn50 0.05 0.03)) by (unfold reinsulated; cbn; repeat split; lra).
  pose proof (dn_critical g fl (fun _ => 70) (fun _ => 70) b Hg Po eq_refl Bk St) as C0.
  split; [exact I|]. split; [exact Hg|]. split; [exact Hg'|]. split; [exact Po|]. split; [reflexivity|].
  split; [exact Bk|]. split; [exact Bk'|]. cbv zeta. split; [exact St|]. split; [exact St'|].
  assert (C : pa_lins (dn50 0.02 0.035) / r_ainf (pipe_diff g 0 fl (fun _ => 70) (fun _ => 70) 15 b) 2%nat <= outer_radius (dn50 0.02 0.035)).
  { replace (outer_radius (dn50 0.02 0.035)) with 0.05015 by (unfold outer_radius; cbn; lra). change (pa_lins (dn50 0.02 0.035)) with 0.035.
    set (al := r_ainf _ _) in *. clearbody al. assert (0 < al) by lra.
    apply Rmult_le_reg_r with al; [assumption|]. unfold Rdiv. rewrite Rmult_assoc, Rinv_l by lra. lra. }
  split; [exact C|].
  destruct (C189_insulation (dn50 0.02 0.035) (dn50 0.05 0.03) dn50_ports dn50_ports g g' 0 fl fl (fun _ => 70) (fun _ => 70) (fun _ => 70) (fun _ => 70)
    15 b b' 2%nat I Hg Hg') as [_ B]; try assumption; try (unfold pipe_dims, solid; cbn; lra); try (cbn; lia); try reflexivity.
  - intros _. exact C.
  - apply B. left. cbn. lra.
Qed.

(** A storage of 0.5 m3 with 100 mm and with 200 mm of insulation. *)
Definition tank (s l : R) : tes_arg :=
  {| ta_vol := 0.5; ta_gp := 10%Z; ta_do := 0.6; ta_shell := 0.004; ta_sins := s; ta_lins := l; ta_cp := 500; ta_rho := 7900; ta_lam := 50 |}.
Definition tank_ports : prts :=
  {| p_np := 2; p_own := fun i => match i with O => 0 | _ => 9 end%nat; p_gsp := fun _ => 1; p_sub := fun _ => 1; p_A := fun _ => 0.0023; p_w := fun _ => 0 |}.
Example C189_ex_tes : exists g g' b b' io f Tx Tp,
  tes_reinsulated (tank 0.1 0.03) (tank 0.2 0.03) /\
  tes_new (tank 0.1 0.03) tank_ports = Some g /\ tes_new (tank 0.2 0.03) tank_ports = Some g' /\
  ports_ok 10 tank_ports /\ Tx 3%nat = 77 /\ buf_ok g b /\ buf_ok g' b' /\
  let r := tes_diff g io f Tx Tp 15 b in let r' := tes_diff g' io f Tx Tp 15 b' in
  settled r b 2%nat /\ settled r' b' 2%nat /\ 0.03 / r_ainf r 2%nat <= 0.6 / 2 + 0.1 /\
  r_ua r' 2%nat * (77 - 15) < r_ua r 2%nat * (77 - 15).
Proof.
  destruct (proj2 (tes_new_iff (tank 0.1 0.03) tank_ports)) as [g Hg]; [unfold tes_acc; cbn; repeat split; try lra; lia|].
  destruct (proj2 (tes_new_iff (tank 0.2 0.03) tank_ports)) as [g' Hg']; [unfold tes_acc; cbn; repeat split; try lra; lia|].
  assert (Po : ports_ok 10 tank_ports) by (split; [intros [|i] _; cbn; lia|intro i; cbn; lra]).
  set (fl := {| f_top := fun _ => 0; f_bot := fun _ => 0; f_port := fun _ => 0 |}). set (io := fun i : nat => match i with O => 0.2 | _ => -0.2 end).
  set (Tx := fun k : nat => 80 - INR k). assert (T3 : Tx 3%nat = 77) by (unfold Tx; cbn; lra).
  assert (G : geo_ok g) by (apply (tes_geo_ok (tank 0.1 0.03) tank_ports g Hg); try (unfold solid; cbn; lra); exact Po).
  assert (G' : geo_ok g') by (apply (tes_geo_ok (tank 0.2 0.03) tank_ports g' Hg'); try (unfold solid; cbn; lra); exact Po).
  assert (N : (2 < g_n g)%nat /\ (2 < g_n g')%nat).
  { destruct (tes_new_inv _ _ _ Hg) as [_ (? & ? & _ & _ & ->)]. destruct (tes_new_inv _ _ _ Hg') as [_ (? & ? & _ & _ & ->)]. cbn. lia. }
  pose (pf := process_flow_var (g_n g) (g_np g) (g_own g) io fl). pose (pf' := process_flow_var (g_n g') (g_np g') (g_own g') io fl).
  destruct (ev_exists g (fun lam => buoyancy (g_n g) (g_di g) (fun j => Tx (S j)) (lam_mean lam)) (snd pf) (fst pf) true no_heat Tx (fun _ => 50) 15 2%nat G
    ltac:(lra) ltac:(lra)) as (b & Bk & St).
  destruct (ev_exists g' (fun lam => buoyancy (g_n g') (g_di g') (fun j => Tx (S j)) (lam_mean lam)) (snd pf') (fst pf') true no_heat Tx (fun _ => 50) 15 2%nat G'
    ltac:(lra) ltac:(lra)) as (b' & Bk' & St').
  assert (I : tes_reinsulated (tank 0.1 0.03) (tank 0.2 0.03)) by (unfold tes_reinsulated; cbn; repeat split; lra).
  exists g, g', b, b', io, fl, Tx, (fun _ => 50).
  split; [exact I|]. split; [exact Hg|]. split; [exact Hg'|]. split; [exact Po|]. split; [exact T3|]. split; [exact Bk|]. split; [exact Bk'|].
  cbv zeta. split; [exact St|]. split; [exact St'|].
  assert (C : 0.03 / r_ainf (tes_diff g io fl Tx (fun _ => 50) 15 b) 2%nat <= 0.6 / 2 + 0.1).
  { assert (A : 0.08 <= r_ainf (tes_diff g io fl Tx (fun _ => 50) 15 b) 2%nat).
    { destruct (Bk 2%nat (proj1 N)) as [B1 B2].
      destruct (between (Tx 3%nat) 15 (g_As g) (b_ainf b 2%nat) (b_ua b 2%nat) B1 (ok_As g G) B2) as (k & Hk & Ek).
      change (0.08 <= cyl_alpha_inf (surface_temp (Tx 3%nat) 15 (g_As g) (b_ainf b 2%nat) (b_ua b 2%nat)) 15 (g_L g) (g_vert g) (g_rt g)).
      rewrite Ek, T3. pose proof (ok_L g G) as PL. pose proof (ok_rt g G) as Pr.
      assert (V : g_vert g = true /\ g_L g <= 0.2).
      { destruct (tes_new_inv _ _ _ Hg) as [_ (di & len & Edi & Elen & ->)]. split; [reflexivity|]. cbn. rewrite Elen, Edi. cbn. pose proof PI_between.
        apply Rmult_le_reg_r with (PI * (0.6 - 2 * 0.004) ^ 2 / 4 * 10); [nra|].
        match goal with |- ?x * ?y <= _ => replace (x * y) with 0.5 by (cbn; field; nra) end. nra. }
      destruct V as [-> VL]. unfold cyl_alpha_inf. cbv zeta. pose proof (lam_air_bounds ((15 + (15 + k * (77 - 15))) / 2) ltac:(nra)) as LB.
      set (lm := lam_dryair _) in *. clearbody lm.
      pose proof (npow_nonneg (rayleigh (15 + k * (77 - 15)) 15 (g_L g) (ny_dryair ((15 + (15 + k * (77 - 15))) / 2)) * 0.3466023585520853) (1 / 6)) as NP.
      set (q := npow _ _) in *. clearbody q. assert (K : 0 < 0.435 * g_L g / (2 * g_rt g)) by (apply Rdiv_lt_0_compat; lra).
      set (z := 0.435 * g_L g / (2 * g_rt g)) in *. clearbody z. set (L := g_L g) in *. clearbody L.
      assert (Q : 0.825 ^ 2 <= (0.825 + 0.387 * q) ^ 2) by (apply pow_incr; lra).
      assert (Q2 : 0.825 ^ 2 * 0.024 <= ((0.825 + 0.387 * q) ^ 2 + z) * lm) by (apply Rmult_le_compat; lra).
      apply Rmult_le_reg_r with L; [lra|]. unfold Rdiv. rewrite Rmult_assoc, Rinv_l by lra. lra. }
    set (al := r_ainf _ _) in *. clearbody al. apply Rmult_le_reg_r with al; [lra|]. unfold Rdiv at 1. rewrite Rmult_assoc, Rinv_l by lra. lra. }
  split; [exact C|]. rewrite <- T3.
  destruct (C189_tes (tank 0.1 0.03) (tank 0.2 0.03) tank_ports g g' io fl Tx Tx (fun _ => 50) (fun _ => 50) 15 b b' 2%nat I Hg Hg') as [_ B];
    try assumption; try (unfold solid; cbn; lra); try (cbn; lia); try lra.
  - intros _. exact C.
  - apply B. left. cbn. lra.
Qed.
