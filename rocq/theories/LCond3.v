(** The condensing heat exchanger with its flow ranges and bypass. *)
From Coq Require Import Reals List ZArith Bool Arith Lra Lia.
From Verif Require Import SFlow LFlow MWater LWater MPorts LPorts SMix MCond SCond LCond LCond2.
Import ListNotations.
Open Scope R_scope.

Definition mixed (p : cpar) (Tw Tg dv x : R) : R :=
  mix_bypass Tw (unmixed (cp_reg p) 0 Tw Tg dv (cp_whi p)) (x - cp_whi p) (cp_whi p).

(** Running exchanger with a water flow not below the range. *)
Lemma solve_running p Tw Tg dmw dvg dv : cpar_ok p -> gas_flow p (dvg / cp_sg p) = Some dv ->
  dv <> 0 -> 0 < dmw / cp_sw p -> cp_wlo p <= dmw / cp_sw p -> 0 < cp_whi p ->
  cond_solve p Tw Tg dmw dvg =
  Some (join (cp_whi p) (unmixed (cp_reg p) 0 Tw Tg dv) (mixed p Tw Tg dv) (dmw / cp_sw p),
        unmixed (cp_reg p) 1 Tw Tg dv (Rmin (dmw / cp_sw p) (cp_whi p))).
Proof.
  intros (K & Sw & Sg & W & G) E V X L H. unfold cond_solve, water_flow, join, mixed. rewrite E.
  set (x := dmw / cp_sw p) in *. clearbody x.
  assert (C : (let (dm, byp) := if Rlt_dec (cp_whi p) x then (cp_whi p, Some (x - cp_whi p)) else (x, None) in
     match outlets (cp_reg p) Tw Tg dm dv with
     | Some (w, g) => Some (match byp with Some ex => mix_bypass Tw w ex (cp_whi p) | None => w end, g)
     | None => None end) =
     Some (if Rlt_dec (cp_whi p) x
           then mix_bypass Tw (unmixed (cp_reg p) 0 Tw Tg dv (cp_whi p)) (x - cp_whi p) (cp_whi p)
           else unmixed (cp_reg p) 0 Tw Tg dv x,
           unmixed (cp_reg p) 1 Tw Tg dv (Rmin x (cp_whi p)))).
  { destruct (Rlt_dec (cp_whi p) x).
    - rewrite outlets_is by (try assumption; lra). rewrite Rmin_right by lra. reflexivity.
    - rewrite outlets_is by (try assumption; lra). rewrite Rmin_left by lra. reflexivity. }
  destruct (Req_EM_T (cp_wlo p) 0); [exact C|].
  destruct (Rlt_dec x (cp_wlo p)); [lra|exact C].
Qed.

Lemma mix_cont Tw Tx through c x : 0 < cp_water Tw -> 0 < cp_water Tx -> 0 < through -> c <= x ->
  continuity_pt (fun y => mix_bypass Tw Tx (y - c) through) x.
Proof.
  intros A B T H. unfold mix_bypass.
  assert (L : forall k m n, continuity_pt (fun y => k * (y - c) * m + n) x).
  { intros. apply derivable_continuous_pt. reg. }
  assert (D : 0 < cp_water Tw * (x - c) + cp_water Tx * through).
  { pose proof (Rmult_lt_0_compat _ _ B T). assert (0 <= cp_water Tw * (x - c)) by (apply Rmult_le_pos; lra). lra. }
  apply (cont_ext _ (div_fct (fun y => cp_water Tw * (y - c) * Tw + cp_water Tx * through * Tx)
                     (fun y => cp_water Tw * (y - c) * 1 + cp_water Tx * through))).
  { intros y. unfold div_fct. now rewrite Rmult_1_r. }
  apply continuity_pt_div; [apply L|apply L|]. lra.
Qed.

Lemma mix_zero Tw Tx through : 0 < cp_water Tx -> 0 < through -> mix_bypass Tw Tx 0 through = Tx.
Proof.
  intros B T. unfold mix_bypass. rewrite Rmult_0_r, Rmult_0_l, !Rplus_0_l. field. split; lra.
Qed.

Lemma mix_between Tw Tx ex through : 0 < cp_water Tw -> 0 < cp_water Tx -> 0 < ex -> 0 < through ->
  between Tw Tx (mix_bypass Tw Tx ex through).
Proof.
  intros A B E T. unfold mix_bypass, between.
  pose proof (Rmult_lt_0_compat _ _ A E) as P. pose proof (Rmult_lt_0_compat _ _ B T) as Q.
  set (b := cp_water Tw * ex) in *. set (h := cp_water Tx * through) in *. clearbody b h.
  assert (D : (b * Tw + h * Tx) / (b + h) * (b + h) = b * Tw + h * Tx) by (field; lra).
  set (y := (b * Tw + h * Tx) / (b + h)) in *. clearbody y.
  unfold Rmin, Rmax. destruct (Rle_dec Tw Tx); split; nra.
Qed.
