(** C190: the heat losses of pipes and storages settle. *)
From Coq Require Import Reals List Arith ZArith Bool Lra Lia.
From Verif Require Import MFlow MWater MDiff MGeom SFlow SDiff SGeom LFlow LDiff2 LGeom SInsul LInsul LInsul2 SSurf LSurf LSurf2.
Open Scope R_scope.

(** Pipes, also with branches or heating: evaluated again and again at the same temperatures, from any state of the persistent
    arrays, a warm cell approaches one loss. *)
Theorem C190_pipe : forall a p g Tx Tp Tamb j, pipe_new a p = Some g -> pipe_dims a ->
  solid (pa_cp a) (pa_rho a) (pa_lam a) -> 0 < pa_lins a -> (2 <= pa_gp a)%Z -> ports_ok (Z.to_nat (pa_gp a)) p ->
  (j < Z.to_nat (pa_gp a))%nat -> 0 <= Tamb < Tx (S j) -> Tx (S j) <= 100 ->
  (forall io f, loss_settles (buf_ok g) (pipe_diff g io f Tx Tp Tamb) j) /\
  (forall io f, loss_settles (buf_ok g) (branched_diff g io f Tx Tp Tamb) j) /\
  (forall lo hi dQ io f, loss_settles (buf_ok g) (heated_diff g lo hi dQ io f Tx Tp Tamb) j).
Proof.
  intros a p g Tx Tp Tamb j Hn Hd Hs Hl H2 Hp Hj HT HT2.
  pose proof (pipe_geo_ok a p g Hn Hd Hs Hl H2 Hp) as G.
  assert (Hj' : (j < g_n g)%nat) by (destruct (pipe_new_inv a p g Hn) as [_ ->]; exact Hj).
  split; [|split]; intros; apply (ev_all g _ _ _ _ _ Tx Tp Tamb j G Hj' HT HT2).
Qed.
Print Assumptions C190_pipe.

(** Thermal energy storages. *)
Theorem C190_tes : forall a p g io f Tx Tp Tamb j, tes_new a p = Some g -> solid (ta_cp a) (ta_rho a) (ta_lam a) ->
  0 < ta_vol a -> 2 * ta_shell a < ta_do a -> 0 < ta_lins a -> ports_ok (Z.to_nat (ta_gp a)) p ->
  (j < Z.to_nat (ta_gp a))%nat -> 0 <= Tamb < Tx (S j) -> Tx (S j) <= 100 ->
  loss_settles (buf_ok g) (tes_diff g io f Tx Tp Tamb) j.
Proof.
  intros a p g io f Tx Tp Tamb j Hn Hs Hv Hd Hl Hp Hj HT HT2.
  pose proof (tes_geo_ok a p g Hn Hs Hv Hd Hl Hp) as G.
  assert (Hj' : (j < g_n g)%nat) by (destruct (tes_new_inv a p g Hn) as [_ (di & len & _ & _ & ->)]; exact Hj).
  apply (ev_all g _ _ _ _ _ Tx Tp Tamb j G Hj' HT HT2).
Qed.
Print Assumptions C190_tes.

(** A pipe DN 50 at 70 degC as initialised: the loss starts at nothing and tends to a positive value. *)
Example C190_ex : exists g ulim, pipe_new (dn50 0.02 0.035) dn50_ports = Some g /\ buf_ok g buf0 /\ 0 < ulim /\ b_ua buf0 2%nat = 0 /\
  Un_cv (fun n => b_ua (evals (pipe_diff g 0.3 {| f_top := fun _ => 0; f_bot := fun _ => 0; f_port := fun _ => 0 |} (fun _ => 70) (fun _ => 70) 15) buf0 n) 2%nat) ulim.
Proof.
  destruct (proj2 (pipe_new_iff (dn50 0.02 0.035) dn50_ports)) as [g Hg]; [unfold pipe_acc; cbn; repeat split; try lra; lia|].
  assert (Po : ports_ok 5 dn50_ports) by (split; [intros [|i] _; cbn; lia|intro i; cbn; lra]).
  destruct (C190_pipe (dn50 0.02 0.035) dn50_ports g (fun _ => 70) (fun _ => 70) 15 2%nat Hg) as (H & _);
    try (unfold pipe_dims, solid; cbn; lra); [cbn; lia|exact Po|cbn; lia|].
  destruct (H 0.3 {| f_top := fun _ => 0; f_bot := fun _ => 0; f_port := fun _ => 0 |}) as (al & u & _ & Pu & _ & K).
  assert (G : geo_ok g) by (apply (pipe_geo_ok (dn50 0.02 0.035) dn50_ports g Hg); try (unfold pipe_dims, solid; cbn; lra); [cbn; lia|exact Po]).
  exists g, u. split; [exact Hg|]. split; [apply buf0_ok, G|]. split; [exact Pu|]. split; [reflexivity|].
  apply (K buf0 (buf0_ok g G)).
Qed.
(** A storage of 0.5 m3 with ten cells meets the conditions too. *)
Definition tank : tes_arg :=
  {| ta_vol := 0.5; ta_gp := 10%Z; ta_do := 0.6; ta_shell := 0.004; ta_sins := 0.1; ta_lins := 0.03; ta_cp := 500; ta_rho := 7900; ta_lam := 50 |}.
Definition tank_ports : prts :=
  {| p_np := 2; p_own := fun i => match i with O => 0 | _ => 9 end%nat; p_gsp := fun _ => 1; p_sub := fun _ => 1; p_A := fun _ => 0.0023; p_w := fun _ => 0 |}.
Example C190_ex_tes : exists g, tes_new tank tank_ports = Some g /\
  forall io f, loss_settles (buf_ok g) (tes_diff g io f (fun k => 80 - INR k) (fun _ => 50) 20) 4%nat.
Proof.
  destruct (proj2 (tes_new_iff tank tank_ports)) as [g Hg]; [unfold tes_acc; cbn; repeat split; try lra; lia|].
  exists g. split; [exact Hg|]. intros io f.
  apply (C190_tes tank tank_ports g io f _ _ 20 4%nat Hg); try (unfold solid; cbn; lra); try (cbn; lia).
  - split; [intros [|i] _; cbn; lia|intro i; cbn; lra].
Qed.

(** Cells at any temperature, colder than the air too: the losses, or then gains, still settle. *)
Theorem C190_any : forall a p g Tx Tp Tamb j, pipe_new a p = Some g -> pipe_dims a ->
  solid (pa_cp a) (pa_rho a) (pa_lam a) -> 0 < pa_lins a -> (2 <= pa_gp a)%Z -> ports_ok (Z.to_nat (pa_gp a)) p ->
  (j < Z.to_nat (pa_gp a))%nat -> 0 <= Tamb <= 100 -> 0 <= Tx (S j) <= 100 ->
  (forall io f, loss_tends (buf_ok g) (pipe_diff g io f Tx Tp Tamb) j) /\
  (forall io f, loss_tends (buf_ok g) (branched_diff g io f Tx Tp Tamb) j) /\
  (forall lo hi dQ io f, loss_tends (buf_ok g) (heated_diff g lo hi dQ io f Tx Tp Tamb) j).
Proof.
  intros a p g Tx Tp Tamb j Hn Hd Hs Hl H2 Hp Hj HT HT2.
  pose proof (pipe_geo_ok a p g Hn Hd Hs Hl H2 Hp) as G.
  assert (Hj' : (j < g_n g)%nat) by (destruct (pipe_new_inv a p g Hn) as [_ ->]; exact Hj).
  split; [|split]; intros; apply (any_all g _ _ _ _ _ Tx Tp Tamb j G Hj' HT HT2).
Qed.
Print Assumptions C190_any.
Theorem C190_any_tes : forall a p g io f Tx Tp Tamb j, tes_new a p = Some g -> solid (ta_cp a) (ta_rho a) (ta_lam a) ->
  0 < ta_vol a -> 2 * ta_shell a < ta_do a -> 0 < ta_lins a -> ports_ok (Z.to_nat (ta_gp a)) p ->
  (j < Z.to_nat (ta_gp a))%nat -> 0 <= Tamb <= 100 -> 0 <= Tx (S j) <= 100 ->
  loss_tends (buf_ok g) (tes_diff g io f Tx Tp Tamb) j.
Proof.
  intros a p g io f Tx Tp Tamb j Hn Hs Hv Hd Hl Hp Hj HT HT2.
  pose proof (tes_geo_ok a p g Hn Hs Hv Hd Hl Hp) as G.
  assert (Hj' : (j < g_n g)%nat) by (destruct (tes_new_inv a p g Hn) as [_ (di & len & _ & _ & ->)]; exact Hj).
  apply (any_all g _ _ _ _ _ Tx Tp Tamb j G Hj' HT HT2).
Qed.
Print Assumptions C190_any_tes.
(** The same pipe at 6 degC in air of 20 degC. *)
Example C190_ex_cold : exists g, pipe_new (dn50 0.02 0.035) dn50_ports = Some g /\
  forall io f, loss_tends (buf_ok g) (pipe_diff g io f (fun _ => 6) (fun _ => 10) 20) 2%nat.
Proof.
  destruct (proj2 (pipe_new_iff (dn50 0.02 0.035) dn50_ports)) as [g Hg]; [unfold pipe_acc; cbn; repeat split; try lra; lia|].
  assert (Po : ports_ok 5 dn50_ports) by (split; [intros [|i] _; cbn; lia|intro i; cbn; lra]).
  exists g. split; [exact Hg|].
  apply (C190_any (dn50 0.02 0.035) dn50_ports g (fun _ => 6) (fun _ => 10) 20 2%nat Hg);
    try (unfold pipe_dims, solid; cbn; lra); [cbn; lia|exact Po|cbn; lia].
Qed.
