(** Differentials of a pipe described from its other end (C184). *)
From Coq Require Import Reals List Arith Bool Lra Lia.
From Verif Require Import MFlow MWater MDiff SFlow LFlow LDiff LDiff2 SMirror.
Import ListNotations.
Local Open Scope R_scope.

Lemma rsum_rev m f : rsum m f = rsum m (fun i => f (m - 1 - i)%nat).
Proof.
  revert f. induction m as [|m IH]; intro f; [reflexivity|]. rewrite (shift_top m (fun i => f (S m - 1 - i)%nat)). cbn [rsum].
  rewrite (IH f). replace (S m - 1 - 0)%nat with m by lia. rewrite Rplus_comm. f_equal.
  apply rsum_ext. intros i Hi. f_equal. lia.
Qed.
Lemma at_cell_mirror n np own c c' j : (forall i, (i < np)%nat -> (own i < n)%nat) -> (j < n)%nat ->
  (forall i, (i < np)%nat -> c' i = c (np - 1 - i)%nat) ->
  at_cell np (fun i => (n - 1 - own (np - 1 - i))%nat) c' j = at_cell np own c (n - 1 - j).
Proof.
  intros HO Hj Hc. unfold at_cell. rewrite (rsum_rev np (fun i => if (own i =? n - 1 - j)%nat then c i else 0)).
  apply rsum_ext. intros i Hi. pose proof (HO (np - 1 - i)%nat ltac:(lia)).
  destruct (Nat.eqb_spec (n - 1 - own (np - 1 - i)%nat) j), (Nat.eqb_spec (own (np - 1 - i)%nat) (n - 1 - j)); try lia;
    [apply Hc; exact Hi|reflexivity].
Qed.

Section Core.
Variables (g : geo) (dm dm' : arr) (f f' : flows) (heat heat' : arr -> arr) (Tx Tx' Tp Tp' : arr)
  (Tamb : R) (b b' : buf).
Let n := g_n g.
Let np := g_np g.
Let r := part_diff g lam_mean dm f false heat Tx Tp Tamb b.
Let r' := part_diff (mirror_geo g) lam_mean dm' f' false heat' Tx' Tp' Tamb b'.
Hypothesis Hn : (1 <= n)%nat.
Hypothesis Hin : ports_in g.
Hypothesis HT : forall k, (k < n + 2)%nat -> Tx' k = Tx (n + 1 - k)%nat.
Hypothesis HP : forall i, (i < np)%nat -> Tp' i = Tp (np - 1 - i)%nat.
Hypothesis Hb1 : forall j, (j < n)%nat -> b_ainf b' j = b_ainf b (n - 1 - j)%nat.
Hypothesis Hb2 : forall j, (j < n)%nat -> b_ua b' j = b_ua b (n - 1 - j)%nat.

Lemma cell_T j : (j < n)%nat -> Tx' (S j) = Tx (S (n - 1 - j)).
Proof. intro H. rewrite HT by lia. f_equal. lia. Qed.
Lemma mir_mcp j : (j < n)%nat -> r_mcp r' j = r_mcp r (n - 1 - j)%nat.
Proof. intro H. unfold r', r. cbn [part_diff r_mcp mirror_geo g_V g_mw]. rewrite cell_T by exact H. reflexivity. Qed.
Lemma mir_rhocp j : (j < n)%nat -> r_rhocp r' j = r_rhocp r (n - 1 - j)%nat.
Proof. intro H. unfold r', r. cbn [part_diff r_rhocp]. rewrite cell_T by exact H. reflexivity. Qed.
Lemma mir_rho j : (j < n)%nat -> r_rho r' j = r_rho r (n - 1 - j)%nat.
Proof. intro H. unfold r', r. cbn [part_diff r_rho]. rewrite cell_T by exact H. reflexivity. Qed.
Lemma mir_tb k : (k <= n)%nat -> r_tb r' k = r_tb r (n - k)%nat.
Proof.
  intro H. unfold r', r. cbn [part_diff r_tb]. unfold ua_tb. cbn [mirror_geo g_n g_A g_gsp g_tbw].
  fold n. destruct (Nat.leb_spec 1 k), (Nat.ltb_spec k n), (Nat.leb_spec 1 (n - k)), (Nat.ltb_spec (n - k) n);
    cbn [andb]; try lia; try reflexivity.
  f_equal. f_equal. unfold lam_mean. rewrite !cell_T by lia.
  replace (n - 1 - (k - 1))%nat with (n - k)%nat by lia.
  replace (n - 1 - S (k - 1))%nat with (n - k - 1)%nat by lia.
  replace (S (n - k - 1)) with (n - k)%nat by lia.
  rewrite (Rplus_comm (lambda_water (Tx (S (n - k))))). unfold Rdiv. ring.
Qed.
Lemma mir_ts j : (j < n)%nat -> r_ts r' j = r_ts r (n - 1 - j)%nat.
Proof.
  intro H. unfold r', r. cbn [part_diff r_ts mirror_geo g_As].
  rewrite cell_T, Hb1, Hb2 by exact H. reflexivity.
Qed.
Lemma mir_ainf j : (j < n)%nat -> r_ainf r' j = r_ainf r (n - 1 - j)%nat.
Proof.
  intro H. pose proof (mir_ts j H) as E. unfold r', r in *. cbn [part_diff r_ainf r_ts mirror_geo g_L g_vert g_rt g_As] in *.
  rewrite E. reflexivity.
Qed.
Lemma mir_uap i : (i < np)%nat -> r_uap r' i = r_uap r (np - 1 - i)%nat.
Proof.
  intro H. unfold r', r. cbn [part_diff r_uap]. unfold ua_port. cbn [mirror_geo g_own g_pA g_pgsp g_gsp g_pw].
  unfold rev_arr. fold np n. rewrite HP by exact H. rewrite cell_T.
  - pose proof (Hin (np - 1 - i)%nat ltac:(unfold np in *; lia)).
    replace (n - 1 - (n - 1 - g_own g (np - 1 - i)))%nat with (g_own g (np - 1 - i)) by (fold n in H0; lia). reflexivity.
  - fold n in Hn. lia.
Qed.

Hypothesis HA : forall j, (j < n)%nat -> alpha_i (mirror_geo g) dm' (fun j => Tx' (S j)) j
  = alpha_i g dm (fun j => Tx (S j)) (n - 1 - j)%nat.
Lemma mir_ua j : (j < n)%nat -> r_ua r' j = r_ua r (n - 1 - j)%nat.
Proof.
  intro H. pose proof (mir_ainf j H) as E. pose proof (HA j H) as E1.
  unfold r', r in *. cbn [part_diff r_ainf r_ua] in *. rewrite E, E1. reflexivity.
Qed.
Lemma mir_cond j : (j < n)%nat -> r_cond r' j = r_cond r (n - 1 - j)%nat.
Proof.
  intro H. unfold r', r. rewrite !cond_val by (cbn [mirror_geo g_n]; fold n; lia).
  fold r r'. unfold lid_at. f_equal.
  - rewrite mir_mcp, mir_ua, !mir_tb by (lia || exact H).
    replace (Tx' j) with (Tx (S (S (n - 1 - j)))) by (rewrite HT by lia; f_equal; lia).
    replace (Tx' (S (S j))) with (Tx (n - 1 - j)%nat) by (rewrite HT by lia; f_equal; lia).
    rewrite cell_T by exact H. replace (n - j)%nat with (S (n - 1 - j)) by lia.
    replace (n - S j)%nat with (n - 1 - j)%nat by lia. f_equal. ring.
  - change (g_np (mirror_geo g)) with np. change (g_own (mirror_geo g)) with (fun i => (n - 1 - g_own g (np - 1 - i))%nat).
    apply at_cell_mirror; [exact Hin|exact H|]. intros i Hi.
    pose proof (Hin (np - 1 - i)%nat ltac:(unfold np in *; lia)) as Q. fold n in Q.
    rewrite mir_uap, HP, mir_mcp, cell_T by (exact Hi || lia).
    replace (n - 1 - (n - 1 - g_own g (np - 1 - i)))%nat with (g_own g (np - 1 - i)) by lia. reflexivity.
Qed.

Hypothesis HF1 : forall j, (j < n)%nat -> f_top f' j = f_bot f (n - 1 - j)%nat.
Hypothesis HF2 : forall j, (j < n)%nat -> f_bot f' j = f_top f (n - 1 - j)%nat.
Hypothesis HF3 : forall i, (i < np)%nat -> f_port f' i = f_port f (np - 1 - i)%nat.
Lemma mir_adv j : (j < n)%nat -> r_adv r' j = r_adv r (n - 1 - j)%nat.
Proof.
  intro H. unfold r', r. rewrite !adv_val. fold r r'. f_equal.
  - rewrite mir_mcp, HF1, HF2 by exact H.
    replace (Tx' j) with (Tx (S (S (n - 1 - j)))) by (rewrite HT by lia; f_equal; lia).
    replace (Tx' (S (S j))) with (Tx (n - 1 - j)%nat) by (rewrite HT by lia; f_equal; lia).
    rewrite cell_T by exact H. f_equal. ring.
  - change (g_np (mirror_geo g)) with np. change (g_own (mirror_geo g)) with (fun i => (n - 1 - g_own g (np - 1 - i))%nat).
    apply at_cell_mirror; [exact Hin|exact H|]. intros i Hi.
    pose proof (Hin (np - 1 - i)%nat ltac:(unfold np in *; lia)) as Q. fold n in Q.
    rewrite HF3, HP, mir_mcp, cell_T by (exact Hi || lia).
    replace (n - 1 - (n - 1 - g_own g (np - 1 - i)))%nat with (g_own g (np - 1 - i)) by lia. reflexivity.
Qed.
End Core.

(** ** One flow through the pipe *)
Lemma alpha_rest T A di x y : alpha_in 0 T A di x = alpha_in 0 T A di y.
Proof.
  unfold alpha_in. cbv zeta. replace (reynolds 0 (rho_water T) A di (ny_water T)) with 0.
  - destruct (Rlt_dec 2300 0); [lra|]. unfold nu_laminar. rewrite Rmult_0_l. unfold Rdiv. rewrite !Rmult_0_l. reflexivity.
  - unfold reynolds, Rdiv. rewrite Rmult_0_l, Rabs_R0. ring.
Qed.
Lemma alpha_opp dm T A di x : alpha_in (- dm) T A di x = alpha_in dm T A di x.
Proof.
  unfold alpha_in, reynolds.
  replace (- dm / (rho_water T * A)) with (- (dm / (rho_water T * A))) by (unfold Rdiv; ring).
  rewrite Rabs_Ropp. reflexivity.
Qed.
Lemma mir_alpha g io Tx Tx' j : (forall k, (k < g_n g + 2)%nat -> Tx' k = Tx (g_n g + 1 - k)%nat) -> (j < g_n g)%nat ->
  alpha_i (mirror_geo g) (fun _ => - io) (fun j => Tx' (S j)) j = alpha_i g (fun _ => io) (fun j => Tx (S j)) (g_n g - 1 - j)%nat.
Proof.
  intros HT H. unfold alpha_i. cbn [mirror_geo g_n g_x g_A g_di]. rewrite alpha_opp, HT by lia.
  replace (g_n g + 1 - S j)%nat with (S (g_n g - 1 - j)) by lia.
  destruct (Rlt_dec (- io) 0), (Rlt_dec io 0); try lra.
  - f_equal. f_equal. lia.
  - replace io with 0 by lra. apply alpha_rest.
Qed.
Lemma mir_invar n np io f f' j : (1 <= n)%nat -> f_top f 0%nat = 0 -> f_bot f (n - 1)%nat = 0 ->
  f_top f' 0%nat = 0 -> f_bot f' (n - 1)%nat = 0 -> (j < n)%nat ->
  f_top (process_flow_invar n np (- io) f') j = f_bot (process_flow_invar n np io f) (n - 1 - j)%nat /\
  f_bot (process_flow_invar n np (- io) f') j = f_top (process_flow_invar n np io f) (n - 1 - j)%nat.
Proof.
  intros Hn E1 E2 E3 E4 Hj. unfold process_flow_invar.
  destruct (Rle_dec 0 (- io)), (Rle_dec 0 io); cbn [f_top f_bot]; unfold fill; try lra;
    (split; [destruct (Nat.leb_spec 1 j), (Nat.ltb_spec j n), (Nat.leb_spec 0 (n - 1 - j)), (Nat.ltb_spec (n - 1 - j) (n - 1))
            |destruct (Nat.leb_spec 1 (n - 1 - j)), (Nat.ltb_spec (n - 1 - j) n), (Nat.leb_spec 0 j), (Nat.ltb_spec j (n - 1))];
      cbn [andb]; try lia; try lra;
      first [ assert (Z : j = 0%nat) by lia; subst j; rewrite ?Nat.sub_0_r; lra
            | assert (Z : j = (n - 1)%nat) by lia; subst j; replace (n - 1 - (n - 1))%nat with 0%nat by lia; lra ]).
Qed.
Lemma mir_port np io f f' i : np = 2%nat -> (i < np)%nat ->
  forall n, f_port (process_flow_invar n np (- io) f') i = f_port (process_flow_invar n np io f) (np - 1 - i)%nat.
Proof.
  intros -> Hi n. unfold process_flow_invar. destruct i as [|[|i]]; [| |lia];
    destruct (Rle_dec 0 (- io)), (Rle_dec 0 io); cbn; try lra.
Qed.
