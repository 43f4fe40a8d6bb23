(** Lemmas on the part differentials: energy balances, equilibrium (C12-C14, C55). *)
From Coq Require Import Reals List Arith Bool Lra Lia.
From Verif Require Import MFlow MWater MDiff SFlow LFlow.
Import ListNotations.
Open Scope R_scope.

Lemma put_eq k v a : put k v a k = v.
Proof. unfold put. rewrite Nat.eqb_refl. reflexivity. Qed.
Lemma put_ne k v a j : j <> k -> put k v a j = a j.
Proof. intros H. unfold put. destruct (Nat.eqb_spec j k); [contradiction|reflexivity]. Qed.

(** The port loop adds to each cell the contributions of its ports. *)
Lemma add_ports_val own c m a j : add_ports own c m a j = a j + at_cell m own c j.
Proof.
  unfold at_cell. induction m; cbn [add_ports rsum]; [lra|].
  destruct (Nat.eqb_spec (own m) j) as [E|E].
  - subst j. rewrite put_eq. rewrite IHm. lra.
  - rewrite put_ne by congruence. rewrite IHm. lra.
Qed.

Lemma at_cell_mult m own c j w :
  w * at_cell m own c j = at_cell m own (fun i => w * c i) j.
Proof.
  unfold at_cell. rewrite <- rsum_scal. apply rsum_ext. intros i _.
  destruct (own i =? j)%nat; lra.
Qed.
Lemma at_cell_local m own c (d : nat -> nat -> R) j :
  (forall i, (i < m)%nat -> own i = j -> c i = d i j) ->
  at_cell m own c j = rsum m (fun i => if (own i =? j)%nat then d i j else 0).
Proof.
  intros H. unfold at_cell. apply rsum_ext. intros i Hi.
  destruct (Nat.eqb_spec (own i) j) as [E|E]; [apply (H i Hi E)|reflexivity].
Qed.

(** Telescoping of the cell-to-cell conduction. *)
Lemma tele n (tb X : nat -> R) : tb 0%nat = 0 ->
  rsum n (fun j => tb j * (X j - X (S j)) + tb (S j) * (X (S (S j)) - X (S j))) =
  - (tb n * (X n - X (S n))).
Proof.
  intros H0. induction n; cbn [rsum]; [rewrite H0; lra|]. rewrite IHn. lra.
Qed.

Lemma shift_bot m (bot : arr) (W : nat -> R) :
  rsum (S m) (fun j => (if (j =? 0)%nat then 0 else bot (j - 1)%nat) * W j) =
  rsum m (fun j => bot j * W (S j)).
Proof.
  induction m; [cbn; lra|].
  change (rsum (S (S m)) ?F) with (rsum (S m) F + F (S m)). rewrite IHm.
  cbn [Nat.eqb rsum]. replace (S m - 1)%nat with m by lia. reflexivity.
Qed.
Lemma shift_top m (W : nat -> R) : rsum (S m) W = W 0%nat + rsum m (fun j => W (S j)).
Proof. induction m; [cbn; lra|]. change (rsum (S (S m)) W) with (rsum (S m) W + W (S m)). rewrite IHm. cbn [rsum]. lra. Qed.

Lemma ua_tb_ends g l : ua_tb g l 0%nat = 0 /\ ua_tb g l (g_n g) = 0.
Proof.
  unfold ua_tb. split; [reflexivity|]. rewrite Nat.ltb_irrefl, andb_false_r. reflexivity.
Qed.

Definition ports_in (g : geo) : Prop := forall i, (i < g_np g)%nat -> (g_own g i < g_n g)%nat.

Section Core.
Variables (g : geo) (lmean : arr -> arr) (dm : arr) (f : flows) (lids : bool)
  (heat : arr -> arr) (Tx Tp : arr) (Tamb : R) (b : buf).
Let r := part_diff g lmean dm f lids heat Tx Tp Tamb b.

Lemma mcp_val j : r_mcp r j = g_V g * (rho_water (Tx (S j)) * cp_water (Tx (S j))) + g_mw g.
Proof. reflexivity. Qed.
Lemma tb_ends : r_tb r 0%nat = 0 /\ r_tb r (g_n g) = 0.
Proof. apply (ua_tb_ends g (lmean (fun j => lambda_water (Tx (S j))))). Qed.

(** Conduction in one cell, without the ports. *)
Definition lid_at (j : nat) : R :=
  (if lids then (if (j =? 0)%nat then r_lid r 0%nat else 0)
                + (if (j =? g_n g - 1)%nat then r_lid r 1%nat else 0) else 0).

Lemma cond_val j : (1 <= g_n g)%nat -> (j < g_n g)%nat ->
  r_cond r j =
    (r_tb r j * (Tx j - Tx (S j)) + r_tb r (S j) * (Tx (S (S j)) - Tx (S j))
     + (r_ua r j + lid_at j) * (Tamb - Tx (S j))) / r_mcp r j
    + at_cell (g_np g) (g_own g) (fun i => r_uap r i * (Tp i - Tx (S (g_own g i)))
        / r_mcp r (g_own g i)) j.
Proof.
  intros Hn Hj. unfold r. cbn [part_diff r_cond]. rewrite add_ports_val.
  f_equal. unfold lid_at, r. cbn [part_diff r_lid r_tb r_ua r_mcp].
  destruct lids; [|unfold Rdiv; ring].
  destruct (Nat.eqb_spec j (g_n g - 1)) as [E1|E1].
  - subst j. rewrite put_eq.
    destruct (Nat.eqb_spec (g_n g - 1) 0) as [E0|E0].
    + rewrite E0, put_eq. replace (g_n g) with 1%nat by lia. unfold Rdiv; ring.
    + rewrite put_ne by lia. replace (S (g_n g - 1)) with (g_n g) by lia. unfold Rdiv; ring.
  - rewrite put_ne by lia. destruct (Nat.eqb_spec j 0) as [E0|E0].
    + subst j. rewrite put_eq. unfold Rdiv; ring.
    + rewrite put_ne by lia. unfold Rdiv; ring.
Qed.

Lemma adv_val j :
  r_adv r j =
    (f_top f j * (cp_water (Tx j) * Tx j - cp_water (Tx (S j)) * Tx (S j))
     + f_bot f j * (cp_water (Tx (S (S j))) * Tx (S (S j)) - cp_water (Tx (S j)) * Tx (S j)))
      / r_mcp r j
    + at_cell (g_np g) (g_own g) (fun i => f_port f i *
        (cp_water (Tp i) * Tp i - cp_water (Tx (S (g_own g i))) * Tx (S (g_own g i)))
        / r_mcp r (g_own g i)) j.
Proof. unfold r. cbn [part_diff r_adv]. rewrite add_ports_val. reflexivity. Qed.

Lemma tot_val j : r_tot r j = r_cond r j + r_adv r j + r_heat r j.
Proof. reflexivity. Qed.

Hypothesis Hn : (1 <= g_n g)%nat.
Hypothesis Hp : ports_in g.

(** Multiplying a port term with the capacity of its cell. *)
Lemma port_mcp (q : nat -> R) j : r_mcp r j <> 0 ->
  r_mcp r j * at_cell (g_np g) (g_own g) (fun i => q i / r_mcp r (g_own g i)) j =
  at_cell (g_np g) (g_own g) q j.
Proof.
  intros H. rewrite at_cell_mult. unfold at_cell. apply rsum_ext. intros i _.
  destruct (Nat.eqb_spec (g_own g i) j) as [E|E]; [|reflexivity].
  rewrite E. field. exact H.
Qed.

Lemma cond_balance : (forall j, (j < g_n g)%nat -> r_mcp r j <> 0) ->
  rsum (g_n g) (fun j => r_mcp r j * r_cond r j) =
    rsum (g_np g) (fun i => r_uap r i * (Tp i - Tx (S (g_own g i))))
    + rsum (g_n g) (fun j => r_ua r j * (Tamb - Tx (S j)))
    + rsum (g_n g) (fun j => lid_at j * (Tamb - Tx (S j))).
Proof.
  intros Hm.
  rewrite (rsum_ext _ _ (fun j =>
    (r_tb r j * (Tx j - Tx (S j)) + r_tb r (S j) * (Tx (S (S j)) - Tx (S j)))
    + r_ua r j * (Tamb - Tx (S j)) + lid_at j * (Tamb - Tx (S j))
    + at_cell (g_np g) (g_own g) (fun i => r_uap r i * (Tp i - Tx (S (g_own g i)))) j)).
  - rewrite 3 rsum_plus, tele by apply tb_ends. rewrite at_cell_sum by exact Hp.
    rewrite (proj2 tb_ends). lra.
  - intros j Hj. rewrite cond_val by assumption. rewrite Rmult_plus_distr_l, port_mcp by auto.
    field. auto.
Qed.

Lemma lid_sum : rsum (g_n g) (fun j => lid_at j * (Tamb - Tx (S j))) =
  if lids then r_lid r 0%nat * (Tamb - Tx 1%nat) + r_lid r 1%nat * (Tamb - Tx (g_n g)) else 0.
Proof.
  unfold lid_at. destruct lids.
  - rewrite (rsum_ext _ _ (fun j =>
      (if (0 =? j)%nat then r_lid r 0%nat * (Tamb - Tx (S j)) else 0) +
      (if (g_n g - 1 =? j)%nat then r_lid r 1%nat * (Tamb - Tx (S j)) else 0))).
    + rewrite rsum_plus, (rsum_pick _ 0 (fun j => r_lid r 0%nat * (Tamb - Tx (S j)))) by lia.
      rewrite (rsum_pick _ (g_n g - 1) (fun j => r_lid r 1%nat * (Tamb - Tx (S j)))) by lia.
      replace (S (g_n g - 1)) with (g_n g) by lia. reflexivity.
    + intros j _. rewrite (Nat.eqb_sym 0 j), (Nat.eqb_sym (g_n g - 1) j).
      destruct (j =? 0)%nat, (j =? g_n g - 1)%nat; lra.
  - apply rsum_zero. intros; lra.
Qed.

(** Advection: total of the cells from the mass balance of every cell. *)
Definition uu (k : nat) : R := cp_water (Tx k) * Tx k.

Lemma adv_balance (out : arr) : (forall j, (j < g_n g)%nat -> r_mcp r j <> 0) ->
  f_top f 0%nat = 0 -> f_bot f (g_n g - 1)%nat = 0 ->
  (forall j, (j < g_n g)%nat ->
     cell_in (f_top f) (f_bot f) (g_np g) (g_own g) (f_port f) j =
     cell_out (g_n g) (f_top f) (f_bot f) (g_np g) (g_own g) out j) ->
  rsum (g_n g) (fun j => r_mcp r j * r_adv r j) =
    rsum (g_np g) (fun i => f_port f i * (cp_water (Tp i) * Tp i))
    - rsum (g_np g) (fun i => out i * uu (S (g_own g i))).
Proof.
  intros Hm Ht Hb Hbal.
  rewrite (rsum_ext _ _ (fun j =>
    (f_top f j * uu j + f_bot f j * uu (S (S j))
     + at_cell (g_np g) (g_own g) (fun i => f_port f i * (cp_water (Tp i) * Tp i)) j)
    - cell_out (g_n g) (f_top f) (f_bot f) (g_np g) (g_own g) out j * uu (S j))).
  2:{ intros j Hj. rewrite <- (Hbal j Hj). rewrite adv_val, Rmult_plus_distr_l, port_mcp by auto.
      unfold cell_in. fold (uu j) (uu (S j)) (uu (S (S j))).
      assert (E : at_cell (g_np g) (g_own g) (fun i => f_port f i * (cp_water (Tp i) * Tp i - uu (S (g_own g i)))) j
        = at_cell (g_np g) (g_own g) (fun i => f_port f i * (cp_water (Tp i) * Tp i)) j
          - at_cell (g_np g) (g_own g) (f_port f) j * uu (S j)).
      { rewrite (Rmult_comm _ (uu (S j))), at_cell_mult. unfold at_cell. rewrite <- rsum_minus.
        apply rsum_ext. intros i _. destruct (Nat.eqb_spec (g_own g i) j) as [<-|]; lra. }
      unfold uu in E |- * at 1. unfold uu in E. rewrite E. unfold uu. field. auto. }
  rewrite rsum_minus, 2 rsum_plus. rewrite at_cell_sum by exact Hp.
  unfold cell_out.
  rewrite (rsum_ext _ (fun j => ((if (j =? 0)%nat then 0 else f_bot f (j - 1)%nat) + _ + _) * _)
    (fun j => (if (j =? 0)%nat then 0 else f_bot f (j - 1)%nat) * uu (S j)
      + (if (S j <? g_n g)%nat then f_top f (S j) else 0) * uu (S j)
      + at_cell (g_np g) (g_own g) out j * uu (S j))) by (intros; ring).
  rewrite 2 rsum_plus.
  rewrite (at_cell_weight (g_n g) _ _ out (fun j => uu (S j))) by exact Hp.
  assert (Hn' : exists m, g_n g = S m) by (exists (g_n g - 1)%nat; lia).
  destruct Hn' as [m Em]. rewrite Em in *. replace (S m - 1)%nat with m in Hb by lia.
  rewrite (shift_bot m (f_bot f) (fun j => uu (S j))).
  rewrite (shift_top m (fun j => f_top f j * uu j)), Ht.
  change (rsum (S m) (fun j => f_bot f j * uu (S (S j)))) with
    (rsum m (fun j => f_bot f j * uu (S (S j))) + f_bot f m * uu (S (S m))). rewrite Hb.
  change (rsum (S m) (fun j => (if (S j <? S m)%nat then f_top f (S j) else 0) * uu (S j))) with
    (rsum m (fun j => (if (S j <? S m)%nat then f_top f (S j) else 0) * uu (S j)) +
     (if (S m <? S m)%nat then f_top f (S m) else 0) * uu (S m)). rewrite Nat.ltb_irrefl.
  rewrite (rsum_ext m (fun j => (if (S j <? S m)%nat then f_top f (S j) else 0) * uu (S j))
    (fun j => f_top f (S j) * uu (S j))).
  - ring.
  - intros j Hj. destruct (Nat.ltb_spec (S j) (S m)); [reflexivity|lia].
Qed.

(** Uniform temperature. *)
Lemma uniform_zero tau : f_top f 0%nat = 0 -> f_bot f (g_n g - 1)%nat = 0 ->
  (forall j, (j < g_n g)%nat -> Tx (S j) = tau) ->
  (forall i, (i < g_np g)%nat -> Tp i = tau) -> Tamb = tau ->
  forall j, (j < g_n g)%nat -> r_cond r j = 0 /\ r_adv r j = 0.
Proof.
  intros Ht Hb HT HP HA j Hj. pose proof tb_ends as [E0 En].
  assert (A1 : r_tb r j * (Tx j - Tx (S j)) = 0 /\
               f_top f j * (cp_water (Tx j) * Tx j - cp_water (Tx (S j)) * Tx (S j)) = 0).
  { destruct j as [|j]; [rewrite E0, Ht; split; ring|].
    rewrite (HT j), (HT (S j)) by lia. split; ring. }
  assert (A2 : r_tb r (S j) * (Tx (S (S j)) - Tx (S j)) = 0 /\
    f_bot f j * (cp_water (Tx (S (S j))) * Tx (S (S j)) - cp_water (Tx (S j)) * Tx (S j)) = 0).
  { destruct (Nat.eq_dec (S j) (g_n g)) as [E|E].
    - rewrite E, En. replace j with (g_n g - 1)%nat by lia. rewrite Hb. split; ring.
    - rewrite (HT j), (HT (S j)) by lia. split; ring. }
  destruct A1 as [A1 B1], A2 as [A2 B2]. split.
  - rewrite cond_val, A1, A2 by assumption. rewrite (HT j), HA by assumption.
    rewrite (at_cell_local _ _ _ (fun _ _ => 0)).
    + rewrite rsum_zero by (intros; destruct (_ =? _)%nat; reflexivity). unfold Rdiv; ring.
    + intros i Hi E. rewrite E, (HT j), (HP i) by assumption. unfold Rdiv; ring.
  - rewrite adv_val, B1, B2. rewrite (at_cell_local _ _ _ (fun _ _ => 0)).
    + rewrite rsum_zero by (intros; destruct (_ =? _)%nat; reflexivity). unfold Rdiv; ring.
    + intros i Hi E. rewrite E, (HT j), (HP i) by assumption. unfold Rdiv; ring.
Qed.
End Core.
