(** The part differentials of MDiff.v, instances of the general lemmas (C12-C15, C22, C55). *)
From Coq Require Import Reals List Arith Bool Lra Lia.
From Verif Require Import MFlow MWater MDiff SFlow SDiff LFlow LWater LDiff LDiff2 LDiff3 LDiff4 LDiff5.
Import ListNotations.
Open Scope R_scope.

Lemma flows_at_ends g f : (1 <= g_n g)%nat -> flows_at g f -> ends0 (g_n g) f.
Proof.
  intros Hn H. induction H; [apply flows0_ends|apply invar_ends; assumption|apply var_ends; assumption].
Qed.
Lemma bufs_at_ok g b : geo_ok g -> bufs_at g b -> buf_ok g b.
Proof.
  intros G H. induction H; [apply buf0_ok, G|..];
    apply buf_after_ok; assumption.
Qed.
Lemma max0_clip a j : clip0 a j = Rmax 0 (a j).
Proof. apply clip0_max. Qed.

Section Any.
Variables (g : geo) (lmean : arr -> arr) (dm : arr) (f : flows) (lids : bool)
  (heat : arr -> arr) (Tx Tp : arr) (Tamb : R) (b : buf).
Let r := part_diff g lmean dm f lids heat Tx Tp Tamb b.
Hypothesis G : geo_ok g.
Hypothesis H : in_range g Tx Tp Tamb.

Lemma cap_ne j : (j < g_n g)%nat -> r_mcp r j <> 0.
Proof.
  intros Hj. pose proof (mcp_pos g lmean dm f lids heat Tx Tp Tamb b G H j Hj) as P.
  fold r in P. lra.
Qed.
Lemma cond_any :
  heat_rate g Tx (r_cond r) =
    rsum (g_np g) (fun i => r_uap r i * (Tp i - Tx (S (g_own g i))))
    + rsum (g_n g) (fun j => r_ua r j * (Tamb - Tx (S j)))
    + (if lids then r_lid r 0%nat * (Tamb - Tx 1%nat) + r_lid r 1%nat * (Tamb - Tx (g_n g)) else 0).
Proof.
  pose proof (ok_n g G) as Hn.
  pose proof (lid_sum g lmean dm f lids heat Tx Tp Tamb b ltac:(lia)) as L. fold r in L. rewrite <- L.
  apply (cond_balance g lmean dm f lids heat Tx Tp Tamb b); [lia|apply (ok_own g G)|exact cap_ne].
Qed.
Lemma cond_second_law t : buf_ok g b ->
  (forall i, (i < g_np g)%nat -> Tp i <= t) -> Tamb <= t ->
  (forall j, (j < g_n g)%nat -> t <= Tx (S j)) -> heat_rate g Tx (r_cond r) <= 0.
Proof.
  intros B HP HA HT. rewrite cond_any. pose proof (ok_n g G) as Hn.
  assert (A1 : rsum (g_np g) (fun i => r_uap r i * (Tp i - Tx (S (g_own g i)))) <= 0).
  { rewrite <- (rsum_zero (g_np g) (fun _ => 0)) by reflexivity. apply rsum_le. intros i Hi.
    pose proof (uap_pos g lmean dm f lids heat Tx Tp Tamb b G H i Hi) as U. fold r in U.
    specialize (HP i Hi). specialize (HT _ (ok_own g G i Hi)). nra. }
  assert (A2 : rsum (g_n g) (fun j => r_ua r j * (Tamb - Tx (S j))) <= 0).
  { rewrite <- (rsum_zero (g_n g) (fun _ => 0)) by reflexivity. apply rsum_le. intros j Hj.
    destruct (ua_bounds g lmean dm f lids heat Tx Tp Tamb b G B H j Hj) as [U _]. fold r in U.
    specialize (HT j Hj). nra. }
  pose proof (lid_nonneg g lmean dm f lids heat Tx Tp Tamb b G B H 0) as L0.
  pose proof (lid_nonneg g lmean dm f lids heat Tx Tp Tamb b G B H 1) as L1. fold r in L0, L1.
  pose proof (HT 0%nat ltac:(lia)) as T0. pose proof (HT (g_n g - 1)%nat ltac:(lia)) as T1.
  replace (S (g_n g - 1)) with (g_n g) in T1 by lia.
  assert (A3 : r_lid r 0%nat * (Tamb - Tx 1%nat) <= 0) by nra.
  assert (A4 : r_lid r 1%nat * (Tamb - Tx (g_n g)) <= 0) by nra.
  assert (A5 : (if lids then r_lid r 0%nat * (Tamb - Tx 1%nat) + r_lid r 1%nat * (Tamb - Tx (g_n g)) else 0) <= 0).
  { assert (X : forall (c : bool) x, x <= 0 -> (if c then x else 0) <= 0) by (intros [] ?; lra). apply X. lra. }
  lra.
Qed.
End Any.

Lemma invar_signed n own io f : (1 <= n)%nat -> two_ends n own -> ends0 n f -> forall i, (i < 2)%nat ->
  f_port (process_flow_invar n 2 io f) i = Rmax 0 (through io i).
Proof.
  intros Hn Ho He i Hi. unfold process_flow_invar.
  destruct i as [|[|i]]; [| |lia]; destruct (Rle_dec 0 io); cbn; unfold put; cbn;
    [rewrite Rmax_right|rewrite Rmax_left|rewrite Rmax_left|rewrite Rmax_right]; lra.
Qed.

Lemma pipe_adv g lids heat lmean dm io f Tx Tp Tamb b : geo_ok g -> pipe_ports g -> ends0 (g_n g) f ->
  in_range g Tx Tp Tamb ->
  heat_rate g Tx (r_adv (part_diff g lmean dm (process_flow_invar (g_n g) (g_np g) io f) lids heat Tx Tp Tamb b))
  = port_enthalpy g (through io) Tx Tp.
Proof.
  intros G [Np [O0 O1]] He Hr. pose proof (ok_n g G) as Hn. unfold heat_rate, port_enthalpy.
  assert (Ho : two_ends (g_n g) (g_own g)) by (split; assumption).
  destruct (invar_ends (g_n g) (g_np g) io f ltac:(lia) He) as [Z1 Z2].
  pose proof (invar_balance (g_n g) (g_own g) io f ltac:(lia) Ho He) as BAL. cbv zeta in BAL.
  etransitivity; [apply (adv_balance g lmean dm (process_flow_invar (g_n g) (g_np g) io f) lids heat Tx Tp Tamb b
     ltac:(lia) (ok_own g G) (leaves (through io)))|].
  - apply cap_ne; assumption.
  - exact Z1.
  - exact Z2.
  - intros j Hj. rewrite Np. apply BAL, Hj.
  - rewrite rsum_minus. f_equal.
    + apply rsum_ext. intros i Hi. rewrite Np in *. rewrite (invar_signed _ (g_own g)) by assumption || lia. reflexivity.
Qed.
Lemma branch_adv g lids heat lmean dm io f Tx Tp Tamb b : geo_ok g -> branch_ports g -> ends0 (g_n g) f ->
  in_range g Tx Tp Tamb -> rsum (g_np g) io = 0 ->
  heat_rate g Tx (r_adv (part_diff g lmean dm (fst (process_flow_var (g_n g) (g_np g) (g_own g) io f)) lids heat Tx Tp Tamb b))
  = port_enthalpy g io Tx Tp.
Proof.
  intros G [Np Hs] He Hr H0. pose proof (ok_n g G) as Hn. unfold heat_rate, port_enthalpy.
  assert (So : sorted_ports (g_n g) (g_np g) (g_own g)) by (split; [exact Hs|apply (ok_own g G)]).
  destruct (var_ends (g_n g) (g_np g) (g_own g) io f ltac:(lia) He) as [Z1 Z2].
  etransitivity; [apply (adv_balance g lmean dm (fst (process_flow_var (g_n g) (g_np g) (g_own g) io f)) lids heat Tx Tp Tamb b
     ltac:(lia) (ok_own g G) (leaves io))|].
  - apply cap_ne; assumption.
  - exact Z1.
  - exact Z2.
  - intros j Hj. apply (var_balance (g_n g) (g_np g) (g_own g) io f ltac:(lia) Np So He H0 j Hj).
  - rewrite rsum_minus. f_equal. apply rsum_ext. intros i Hi. cbn [process_flow_var fst f_port].
    rewrite clip0_max. reflexivity.
Qed.

Lemma uniform_any g lmean dm f lids heat Tx Tp Tamb b tau :
  (1 <= g_n g)%nat -> ports_in g -> ends0 (g_n g) f ->
  (forall j, (j < g_n g)%nat -> Tx (S j) = tau) ->
  (forall i, (i < g_np g)%nat -> Tp i = tau) -> Tamb = tau ->
  (forall mcp j, heat mcp j = 0) ->
  forall j, (j < g_n g)%nat -> r_tot (part_diff g lmean dm f lids heat Tx Tp Tamb b) j = 0.
Proof.
  intros Hn Hp [Z1 Z2] HT HP HA Hh j Hj.
  destruct (uniform_zero g lmean dm f lids heat Tx Tp Tamb b Hn tau Z1 Z2 HT HP HA j Hj) as [A B].
  rewrite tot_val, A, B. change (r_heat ?r j) with (heat (r_mcp r) j). rewrite Hh. lra.
Qed.

(** Outer dummy cells never matter. *)
Lemma dummy_any g lmean lmean' dm f lids heat Tx Tx' Tp Tamb b :
  (1 <= g_n g)%nat -> ports_in g -> ends0 (g_n g) f ->
  (forall h h' : arr, (forall j, (j < g_n g)%nat -> h j = h' j) -> forall j, (j < g_n g)%nat -> heat h j = heat h' j) ->
  (forall k, (S k < g_n g)%nat -> lmean (fun j => lambda_water (Tx (S j))) k = lmean' (fun j => lambda_water (Tx' (S j))) k) ->
  (forall j, (j < g_n g)%nat -> Tx (S j) = Tx' (S j)) ->
  forall j, (j < g_n g)%nat ->
  r_tot (part_diff g lmean dm f lids heat Tx Tp Tamb b) j =
  r_tot (part_diff g lmean' dm f lids heat Tx' Tp Tamb b) j.
Proof.
  intros Hn Hp [Z1 Z2] HH HL HT j Hj.
  set (r := part_diff g lmean dm f lids heat Tx Tp Tamb b).
  set (r' := part_diff g lmean' dm f lids heat Tx' Tp Tamb b).
  assert (TB : forall k, r_tb r k = r_tb r' k).
  { intros k. unfold r, r'; cbn [part_diff r_tb]. unfold ua_tb.
    destruct (Nat.leb_spec 1 k), (Nat.ltb_spec k (g_n g)); cbn [andb]; try reflexivity.
    rewrite HL by lia. reflexivity. }
  assert (M : forall k, (k < g_n g)%nat -> r_mcp r k = r_mcp r' k).
  { intros k Hk. unfold r, r'. rewrite !mcp_val, (HT k Hk). reflexivity. }
  assert (TS : forall k, (k < g_n g)%nat -> r_ts r k = r_ts r' k).
  { intros k Hk. unfold r, r'. cbn [part_diff r_ts]. rewrite (HT k Hk). reflexivity. }
  assert (AI : forall k, (k < g_n g)%nat -> r_ai r k = r_ai r' k).
  { intros k Hk. unfold r, r'. cbn [part_diff r_ai]. unfold alpha_i. rewrite (HT k Hk). reflexivity. }
  assert (UA : forall k, (k < g_n g)%nat -> r_ua r k = r_ua r' k).
  { intros k Hk. change (ua_cyl g (r_ai r k) (cyl_alpha_inf (r_ts r k) Tamb (g_L g) (g_vert g) (g_rt g)) =
      ua_cyl g (r_ai r' k) (cyl_alpha_inf (r_ts r' k) Tamb (g_L g) (g_vert g) (g_rt g))).
    rewrite AI, TS by exact Hk. reflexivity. }
  assert (LD : forall k, r_lid r k = r_lid r' k).
  { intros [|k]; [change (ua_plate g (r_ai r 0%nat) (plane_alpha_inf (r_ts r 0%nat) Tamb (g_Llid g) (g_vlid g) true) =
      ua_plate g (r_ai r' 0%nat) (plane_alpha_inf (r_ts r' 0%nat) Tamb (g_Llid g) (g_vlid g) true))
    |change (ua_plate g (r_ai r (g_n g - 1)%nat) (plane_alpha_inf (r_ts r (g_n g - 1)%nat) Tamb (g_Llid g) (g_vlid g) false) =
      ua_plate g (r_ai r' (g_n g - 1)%nat) (plane_alpha_inf (r_ts r' (g_n g - 1)%nat) Tamb (g_Llid g) (g_vlid g) false))];
    rewrite AI, TS by lia; reflexivity. }
  assert (UP : forall i, (i < g_np g)%nat -> r_uap r i = r_uap r' i).
  { intros i Hi. unfold r, r'. cbn [part_diff r_uap]. unfold ua_port. rewrite (HT _ (Hp i Hi)). reflexivity. }
  pose proof (tb_ends g lmean dm f lids heat Tx Tp Tamb b) as [E0 En]. fold r in E0, En.
  assert (N1 : r_tb r j * (Tx j - Tx (S j)) = r_tb r j * (Tx' j - Tx' (S j)) /\
    f_top f j * (cp_water (Tx j) * Tx j - cp_water (Tx (S j)) * Tx (S j)) =
    f_top f j * (cp_water (Tx' j) * Tx' j - cp_water (Tx' (S j)) * Tx' (S j))).
  { destruct j as [|q]; [rewrite E0, Z1; split; ring|]. rewrite (HT q), (HT (S q)) by lia. split; reflexivity. }
  assert (N2 : r_tb r (S j) * (Tx (S (S j)) - Tx (S j)) = r_tb r (S j) * (Tx' (S (S j)) - Tx' (S j)) /\
    f_bot f j * (cp_water (Tx (S (S j))) * Tx (S (S j)) - cp_water (Tx (S j)) * Tx (S j)) =
    f_bot f j * (cp_water (Tx' (S (S j))) * Tx' (S (S j)) - cp_water (Tx' (S j)) * Tx' (S j))).
  { destruct (Nat.eq_dec (S j) (g_n g)) as [E|E].
    - rewrite E, En. replace j with (g_n g - 1)%nat by lia. rewrite Z2. split; ring.
    - rewrite (HT (S j)), (HT j) by lia. split; reflexivity. }
  destruct N1 as [N1 N1'], N2 as [N2 N2'].
  assert (HE : r_heat r j = r_heat r' j).
  { change (heat (r_mcp r) j = heat (r_mcp r') j). apply HH; [exact M|exact Hj]. }
  unfold r, r'. rewrite !tot_val, !cond_val, !adv_val by lia. fold r r'.
  rewrite HE, N1, N1', N2, N2'. rewrite <- !TB, (UA j Hj), (M j Hj), (HT j Hj).
  assert (LA : lid_at g lmean dm f lids heat Tx Tp Tamb b j = lid_at g lmean' dm f lids heat Tx' Tp Tamb b j).
  { unfold lid_at. fold r r'. rewrite !LD. reflexivity. }
  rewrite LA.
  assert (P1 : at_cell (g_np g) (g_own g) (fun i => r_uap r i * (Tp i - Tx (S (g_own g i))) / r_mcp r (g_own g i)) j =
    at_cell (g_np g) (g_own g) (fun i => r_uap r' i * (Tp i - Tx' (S (g_own g i))) / r_mcp r' (g_own g i)) j).
  { unfold at_cell. apply rsum_ext. intros i Hi. rewrite (UP i Hi), (HT _ (Hp i Hi)), (M _ (Hp i Hi)). reflexivity. }
  assert (P2 : at_cell (g_np g) (g_own g) (fun i => f_port f i * (cp_water (Tp i) * Tp i - cp_water (Tx (S (g_own g i))) * Tx (S (g_own g i))) / r_mcp r (g_own g i)) j =
    at_cell (g_np g) (g_own g) (fun i => f_port f i * (cp_water (Tp i) * Tp i - cp_water (Tx' (S (g_own g i))) * Tx' (S (g_own g i))) / r_mcp r' (g_own g i)) j).
  { unfold at_cell. apply rsum_ext. intros i Hi. rewrite (HT _ (Hp i Hi)), (M _ (Hp i Hi)). reflexivity. }
  rewrite P1, P2. reflexivity.
Qed.

Lemma lam_mean_ext g Tx Tx' : (forall j, (j < g_n g)%nat -> Tx (S j) = Tx' (S j)) ->
  forall k, (S k < g_n g)%nat ->
  lam_mean (fun j => lambda_water (Tx (S j))) k = lam_mean (fun j => lambda_water (Tx' (S j))) k.
Proof. intros HT k Hk. unfold lam_mean. rewrite (HT k), (HT (S k)) by lia. reflexivity. Qed.
Lemma buoyancy_ext n di T T' l l' : (forall j, (j < n)%nat -> T j = T' j) ->
  (forall k, (S k < n)%nat -> l k = l' k) ->
  forall k, (S k < n)%nat -> buoyancy n di T l k = buoyancy n di T' l' k.
Proof.
  intros HT HL k Hk. unfold buoyancy.
  assert (E : no_inversion n T = no_inversion n T').
  { destruct (no_inversion n T') eqn:E'.
    - apply no_inversion_iff. intros j Hj. rewrite (HT j), (HT (S j)) by lia.
      apply (proj1 (no_inversion_iff n T') E' j Hj).
    - apply not_true_is_false. intros E. rewrite (proj2 (no_inversion_iff n T')) in E'; [discriminate|].
      intros j Hj. rewrite <- (HT j), <- (HT (S j)) by lia. apply (proj1 (no_inversion_iff n T) E j Hj). }
  rewrite E. destruct (no_inversion n T'); [apply HL, Hk|].
  cbv zeta. rewrite (HT k), (HT (S k)), (HL k) by lia. reflexivity.
Qed.
Lemma heated_ext g lo hi p : forall h h' : arr, (forall j, (j < g_n g)%nat -> h j = h' j) ->
  forall j, (j < g_n g)%nat -> heated lo hi p h j = heated lo hi p h' j.
Proof. intros h h' H j Hj. unfold heated. rewrite (H j Hj). reflexivity. Qed.
