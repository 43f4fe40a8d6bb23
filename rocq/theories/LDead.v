(** Dead time: the buffer holds the true ages of the samples not yet passed on, and the
    delayed value is the interpolated signal one dead time ago. *)
From Coq Require Import Reals List Arith Bool ZArith Lia Lra.
From Verif Require Import MCtrl SCtrl.
Import ListNotations.
Open Scope R_scope.

(** ** Lists *)

Lemma first_old_some : forall D l i, first_old D l = Some i ->
  (i < length l)%nat /\ D <= nth i l 0 /\ (forall j, (j < i)%nat -> nth j l 0 < D).
Proof.
  induction l as [|a r IH]; intros i E; [discriminate|]. cbn [first_old] in E.
  destruct (Rle_dec D a) as [L|L].
  - injection E as <-. cbn. split; [lia|]. split; [exact L|]. intros j J; lia.
  - destruct (first_old D r) as [m|]; [|discriminate]. injection E as <-.
    destruct (IH m eq_refl) as (A & B & C). cbn [length nth].
    split; [lia|]. split; [exact B|]. intros [|j] J; [cbn; lra|cbn; apply C; lia].
Qed.
Lemma first_old_none : forall D l, first_old D l = None ->
  forall j, (j < length l)%nat -> nth j l 0 < D.
Proof.
  induction l as [|a r IH]; intros E j J; [cbn in J; lia|]. cbn [first_old] in E.
  destruct (Rle_dec D a) as [L|L]; [discriminate|].
  destruct (first_old D r) as [m|]; [discriminate|].
  destruct j as [|j]; cbn; [lra|]. apply IH; [reflexivity|cbn in J; lia].
Qed.

Lemma nth_rep0 : forall n i, nth i (repeat 0 n) 0 = 0.
Proof. induction n as [|n IH]; intros [|i]; cbn; auto. Qed.
Lemma nth_rep : forall (x : R) n i, (i < n)%nat -> nth i (repeat x n) 0 = x.
Proof. induction n as [|n IH]; intros [|i] L; cbn; try lia; auto. apply IH; lia. Qed.
Lemma nth_first : forall n (l : list R) i, (i < n)%nat -> (i < length l)%nat ->
  nth i (firstn n l) 0 = nth i l 0.
Proof.
  intros n l i A B. rewrite <- (firstn_skipn n l) at 2. rewrite app_nth1; [reflexivity|].
  rewrite firstn_length. lia.
Qed.

Lemma push_len : forall x l, length (push x l) = length l.
Proof. intros. unfold push. rewrite firstn_length. cbn. lia. Qed.
Lemma push_S : forall x l i, (S i < length l)%nat -> nth (S i) (push x l) 0 = nth i l 0.
Proof. intros x l i L. unfold push. rewrite nth_first by (cbn; lia). reflexivity. Qed.
Lemma push_0 : forall x l, (0 < length l)%nat -> nth 0 (push x l) 0 = x.
Proof. intros x [|a l] L; [cbn in L; lia|]. reflexivity. Qed.

Lemma zero_len : forall o l, match o with Some i => (i <= length l)%nat | None => True end ->
  length (zero_from o l) = length l.
Proof.
  intros [i|] l H; unfold zero_from; rewrite app_length, firstn_length, repeat_length; lia.
Qed.
Lemma zero_lo : forall m l i, (i < m)%nat -> (m <= length l)%nat ->
  nth i (zero_from (Some m) l) 0 = nth i l 0.
Proof.
  intros m l i A B. unfold zero_from. rewrite app_nth1 by (rewrite firstn_length; lia).
  apply nth_first; lia.
Qed.
Lemma zero_hi : forall m l i, (m <= i)%nat -> (m <= length l)%nat ->
  nth i (zero_from (Some m) l) 0 = 0.
Proof.
  intros m l i A B. unfold zero_from. rewrite app_nth2 by (rewrite firstn_length; lia).
  apply nth_rep0.
Qed.
Lemma zero_none : forall l i, (S i < length l)%nat -> nth i (zero_from None l) 0 = nth i l 0.
Proof.
  intros l i A. unfold zero_from. rewrite app_nth1 by (rewrite firstn_length; lia).
  apply nth_first; lia.
Qed.

Lemma rd_in : forall junk l i, (i < length l)%nat -> rd junk l i = nth i l 0.
Proof. intros. unfold rd. destruct (lt_dec i (length l)); [reflexivity|lia]. Qed.
Lemma rd_out : forall junk l i, (length l <= i)%nat -> rd junk l i = junk i.
Proof. intros. unfold rd. destruct (lt_dec i (length l)); [lia|reflexivity]. Qed.

Lemma nth_add : forall h l i, (i < length l)%nat ->
  nth i (map (fun a => a + h) l) 0 = nth i l 0 + h.
Proof.
  intros h l i L. rewrite (nth_indep _ 0 (0 + h)) by (rewrite map_length; exact L).
  apply (map_nth (fun a => a + h)).
Qed.

Lemma buf_len_ge : forall D, 0 < D -> 100 * D <= INR (buf_len D) < 100 * D + 1.
Proof.
  intros D P. unfold buf_len. destruct (archimed (- (100 * D))) as [A B].
  assert (Q : (0 <= 1 - up (- (100 * D)))%Z).
  { apply le_IZR. rewrite minus_IZR. lra. }
  rewrite INR_IZR_INZ, Z2Nat.id by exact Q. rewrite minus_IZR. lra.
Qed.

(** ** Clock *)

Lemma clock_lt : forall h, (forall k, 0 < h k) -> forall a b, (a < b)%nat ->
  clock h a < clock h b.
Proof.
  intros h P a b L. induction L as [|b L IH]; cbn [clock]; [specialize (P a); lra|].
  specialize (P b). lra.
Qed.
Lemma clock_le : forall h, (forall k, 0 < h k) -> forall a b, (a <= b)%nat ->
  clock h a <= clock h b.
Proof.
  intros h P a b L. destruct (Nat.eq_dec a b) as [->|N]; [lra|].
  left. apply clock_lt; [exact P|lia].
Qed.
Lemma clock_span : forall h m, (forall k, m <= h k) -> forall a n,
  INR n * m <= clock h (a + n) - clock h a.
Proof.
  intros h m P a n. induction n as [|n IH].
  - cbn. rewrite Nat.add_0_r. lra.
  - rewrite Nat.add_succ_r. cbn [clock]. rewrite S_INR. specialize (P (a + n)%nat). lra.
Qed.

(** ** Invariant *)

Definition nextidx (s : dead) : nat :=
  match d_idx s with Some i => i | None => S (d_last s) end.

Section Delay.
Variable junk : nat -> nat -> R.
Variables (D m : R) (h pv : nat -> R).
Hypothesis Dpos : 0 < D.
Hypothesis mpos : 0 < m.
Hypothesis hm : forall k, m <= h k.
Hypothesis hD : forall k, h k <= D.

Let L := buf_len D.

Record Inv (k : nat) (s : dead) : Prop := {
  inv_age : length (d_age s) = L;
  inv_pvl : length (d_pv s) = L;
  inv_j : (nextidx s < L)%nat;
  inv_jk : (nextidx s <= k)%nat;
  inv_true : forall i, (i <= nextidx s)%nat ->
    nth i (d_age s) 0 = clock h k - clock h (k - i) /\ nth i (d_pv s) 0 = sample pv (k - i);
  inv_stale : forall i, (nextidx s < i < L)%nat ->
    nth i (d_age s) 0 <= nth (nextidx s) (d_age s) 0;
  inv_young : clock h k - clock h (k - nextidx s) < D;
  inv_val : match (k - nextidx s)%nat with
            | O => d_val s = 25
            | S q => clock h q <= clock h k - D /\
                d_val s = sample pv q
                  + (sample pv (S q) - sample pv q) * ((clock h k - D - clock h q) / h q)
            end
}.

Lemma hpos : forall k, 0 < h k.
Proof. intros k. specialize (hm k). lra. Qed.
Lemma Lpos : (0 < L)%nat.
Proof.
  destruct (Nat.eq_dec L 0) as [E|]; [|lia]. unfold L in E.
  destruct (buf_len_ge D Dpos) as [A _]. rewrite E in A. cbn in A. lra.
Qed.

Lemma Inv_0 : Inv 0 (dead_init D).
Proof.
  pose proof Lpos as P. unfold dead_init. fold L.
  split; cbn [d_age d_pv d_idx d_last d_val nextidx].
  - apply repeat_length.
  - apply repeat_length.
  - exact P.
  - lia.
  - intros i I. assert (i = O) as -> by (unfold nextidx in I; cbn in I; lia). cbn [Nat.sub].
    rewrite nth_rep0, (nth_rep 25) by exact P. cbn. split; [lra|reflexivity].
  - intros i I. rewrite !nth_rep0. lra.
  - cbn. lra.
  - reflexivity.
Qed.

(** Enough slots. *)
Hypothesis room : D <= m * (INR L - 1).

Lemma Inv_S : forall k s, Inv k s -> Inv (S k) (dead_step (junk k) D (h k) (pv k) s).
Proof.
  intros k s I. pose proof (inv_age _ _ I) as LA. pose proof (inv_pvl _ _ I) as LP.
  pose proof (inv_j _ _ I) as J. pose proof (inv_jk _ _ I) as JK.
  pose proof (inv_true _ _ I) as T. pose proof (inv_stale _ _ I) as ST.
  pose proof (inv_young _ _ I) as Y. pose proof (inv_val _ _ I) as V.
  pose proof (hpos k) as HK. pose proof (hD k) as HD.
  unfold dead_step. fold (nextidx s).
  set (j := nextidx s) in *. clearbody j.
  set (age := map (fun a => a + h k) (d_age s)).
  assert (LG : length age = L) by (unfold age; rewrite map_length; exact LA).
  assert (G : forall i, (i < L)%nat -> nth i age 0 = nth i (d_age s) 0 + h k).
  { intros i Q. unfold age. apply nth_add. lia. }
  assert (GT : forall i, (i <= j)%nat -> nth i age 0 = clock h (S k) - clock h (k - i)).
  { intros i Q. rewrite G by lia. destruct (T i Q) as [-> _]. cbn [clock]. lra. }
  clearbody age.
  destruct (first_old D age) as [i|] eqn:F.
  - (* a sample reaches the dead time *)
    destruct (first_old_some _ _ _ F) as (IL & ID & IF). rewrite LG in IL.
    assert (IJ : (i <= j)%nat).
    { destruct (le_lt_dec i j) as [Q|Q]; [exact Q|].
      pose proof (ST i (conj Q IL)) as S1. pose proof (IF j Q) as S2.
      rewrite G in ID by exact IL. rewrite G in S2 by exact J. lra. }
    assert (YO : clock h (S k) - clock h (S k - i) < D).
    { destruct i as [|i].
      - rewrite Nat.sub_0_r. lra.
      - specialize (IF i (Nat.lt_succ_diag_r i)). rewrite GT in IF by lia.
        replace (S k - S i)%nat with (k - i)%nat by lia. exact IF. }
    constructor; cbn [d_age d_pv d_idx d_last d_val]; unfold nextidx; cbn [d_idx d_last].
    + rewrite push_len, zero_len; lia.
    + rewrite push_len; lia.
    + lia.
    + lia.
    + intros q Q. destruct q as [|q].
      * rewrite !push_0 by (rewrite ?zero_len; lia). rewrite Nat.sub_0_r.
        split; [lra|reflexivity].
      * rewrite !push_S by (rewrite ?zero_len; lia). rewrite zero_lo by lia.
        rewrite GT by lia. destruct (T q ltac:(lia)) as [_ ->].
        replace (S k - S q)%nat with (k - q)%nat by lia. split; reflexivity.
    + intros q Q. destruct q as [|q]; [lia|].
      rewrite push_S by (rewrite zero_len; lia). rewrite zero_hi by lia.
      destruct i as [|i].
      * rewrite push_0 by (rewrite zero_len; lia). lra.
      * rewrite push_S by (rewrite zero_len; lia). rewrite zero_lo by lia.
        rewrite GT by lia.
        pose proof (clock_le h hpos (k - i) (S k) ltac:(lia)). lra.
    + exact YO.
    + destruct i as [|i].
      * (* one step as long as the dead time *)
        rewrite Nat.sub_0_r. rewrite !rd_in by lia.
        rewrite GT in ID |- * by lia. rewrite Nat.sub_0_r in ID |- *.
        destruct (T O ltac:(lia)) as [_ TP]. rewrite Nat.sub_0_r in TP. rewrite TP.
        cbn [clock] in ID |- *. split; [lra|].
        replace (clock h k + h k - D - clock h k) with 0 by lra.
        replace (clock h k + h k - clock h k) with D by lra.
        field. split; lra.
      * replace (S k - S i)%nat with (S (k - S i)) by lia.
        set (q := (k - S i)%nat) in *.
        pose proof (GT (S i) IJ) as G1. fold q in G1.
        pose proof (GT i ltac:(lia)) as G0. replace (k - i)%nat with (S q) in G0 by lia.
        destruct (T (S i) IJ) as [_ P1]. fold q in P1.
        destruct (T i ltac:(lia)) as [_ P0]. replace (k - i)%nat with (S q) in P0 by lia.
        rewrite !rd_in by lia. rewrite P1, P0, G1, G0. rewrite G1 in ID.
        split; [lra|].
        pose proof (hpos q) as HQ.
        assert (CQ : clock h (S q) = clock h q + h q) by reflexivity.
        set (cq := clock h q) in *. set (ck := clock h (S k)) in *. rewrite CQ.
        destruct (Req_EM_T (ck - cq) D) as [E|E].
        -- replace (ck - D - cq) with 0 by lra. field. lra.
        -- replace (ck - cq - (ck - (cq + h q))) with (h q) by lra. field. lra.
  - (* none does *)
    pose proof (first_old_none _ _ F) as FN. rewrite LG in FN.
    pose proof (FN j J) as YJ. rewrite GT in YJ by lia.
    assert (ROOM : (S j < L)%nat).
    { apply INR_lt. rewrite S_INR.
      pose proof (clock_span h m hm (k - j) (S j)) as C. rewrite S_INR in C.
      replace (k - j + S j)%nat with (S k) in C by lia.
      assert (Q : (INR j + 1) * m < m * (INR L - 1)) by lra.
      apply (Rmult_lt_reg_l m); lra. }
    constructor; cbn [d_age d_pv d_idx d_last d_val]; unfold nextidx; cbn [d_idx d_last].
    + rewrite push_len, zero_len; [lia|exact Logic.I].
    + rewrite push_len; lia.
    + exact ROOM.
    + lia.
    + intros q Q. destruct q as [|q].
      * rewrite push_0 by (rewrite zero_len; [lia|exact Logic.I]).
        rewrite push_0 by lia. rewrite Nat.sub_0_r.
        split; [lra|reflexivity].
      * rewrite push_S by (rewrite zero_len; [lia|exact Logic.I]). rewrite push_S by lia.
        rewrite zero_none by lia.
        rewrite GT by lia. destruct (T q ltac:(lia)) as [_ ->].
        replace (S k - S q)%nat with (k - q)%nat by lia. split; reflexivity.
    + intros q Q. destruct q as [|q]; [lia|].
      rewrite !push_S by (rewrite zero_len; [lia|exact Logic.I]).
      rewrite !zero_none by lia. rewrite !G by lia.
      pose proof (ST q ltac:(lia)). lra.
    + replace (S k - S j)%nat with (k - j)%nat by lia. exact YJ.
    + replace (S k - S j)%nat with (k - j)%nat by lia.
      destruct (T j ltac:(lia)) as [TA TP].
      rewrite !rd_in by lia. rewrite GT, TP by lia.
      replace (clock h (S k) - clock h (k - j) - h k) with (clock h k - clock h (k - j))
        by (cbn [clock]; lra).
      destruct (k - j)%nat as [|q] eqn:E.
      * rewrite V. cbn [sample]. unfold Rdiv. rewrite Rminus_diag_eq by reflexivity. lra.
      * destruct V as [V1 V2]. split; [cbn [clock]; lra|]. rewrite V2.
        pose proof (hpos q) as HQ. cbn [clock] in Y |- *.
        set (cq := clock h q) in *. set (ck := clock h k) in *.
        field. lra.
Qed.

Lemma Inv_at : forall k, Inv k (dead_at junk D h pv k).
Proof. induction k as [|k IH]; [exact Inv_0|]. cbn [dead_at]. apply Inv_S, IH. Qed.

Lemma dead_signal : forall k, signal h pv (clock h k - D) (d_val (dead_at junk D h pv k)).
Proof.
  intros k. pose proof (Inv_at k) as I. pose proof (inv_young _ _ I) as Y.
  pose proof (inv_val _ _ I) as V.
  destruct (k - nextidx (dead_at junk D h pv k))%nat as [|q].
  - left. cbn [clock] in Y. split; [lra|exact V].
  - right. exists q. destruct V as [V1 V2]. split; [lra|exact V2].
Qed.
End Delay.

(** The interpolated signal is a function of time. *)
Lemma signal_unique : forall h pv, (forall k, 0 < h k) ->
  forall tau v w, signal h pv tau v -> signal h pv tau w -> v = w.
Proof.
  intros h pv P tau.
  assert (Z : forall i v, clock h i <= tau <= clock h (S i) -> tau <= 0 ->
    v = sample pv i + (sample pv (S i) - sample pv i) * ((tau - clock h i) / h i) -> v = 25).
  { intros i v C T E. destruct i as [|i].
    - cbn [clock] in C, E. assert (tau = 0) as -> by lra. rewrite E. cbn [sample].
      unfold Rdiv. lra.
    - pose proof (clock_lt h P O (S i) ltac:(lia)). cbn [clock] in H, C. lra. }
  assert (W : forall i j v w, (i <= j)%nat ->
    clock h i <= tau <= clock h (S i) -> clock h j <= tau <= clock h (S j) ->
    v = sample pv i + (sample pv (S i) - sample pv i) * ((tau - clock h i) / h i) ->
    w = sample pv j + (sample pv (S j) - sample pv j) * ((tau - clock h j) / h j) -> v = w).
  { intros i j v w L A B E F. destruct (Nat.eq_dec i j) as [->|N]; [congruence|].
    pose proof (clock_le h P (S i) j ltac:(lia)) as C.
    assert (T1 : tau = clock h (S i)) by lra. assert (T2 : tau = clock h j) by lra.
    assert (J : j = S i).
    { destruct (Nat.eq_dec j (S i)) as [|Q]; [assumption|].
      pose proof (clock_lt h P (S i) j ltac:(lia)). lra. }
    subst j. rewrite E, F, T1. cbn [clock]. pose proof (P i). pose proof (P (S i)).
    field. lra. }
  intros v w [[T E]|[i [A E]]] [[U F]|[j [B F]]].
  - congruence.
  - rewrite E. symmetry. exact (Z j w B T F).
  - rewrite F. exact (Z i v A U E).
  - destruct (le_lt_dec i j) as [Q|Q]; [exact (W i j v w Q A B E F)|].
    symmetry. apply (W j i w v); auto. lia.
Qed.

(** At a sample time it is the sample. *)
Lemma signal_sample : forall h pv, (forall k, 0 < h k) ->
  forall k, signal h pv (clock h k) (sample pv k).
Proof.
  intros h pv P k. right. exists k. cbn [clock]. pose proof (P k). split; [lra|].
  replace (clock h k - clock h k) with 0 by lra. unfold Rdiv. lra.
Qed.

Lemma clock_const : forall x k, clock (fun _ => x) k = INR k * x.
Proof.
  intros x. induction k as [|k IH]; [cbn; lra|]. cbn [clock]. rewrite IH, S_INR. lra.
Qed.

(** The signal stays within the range of the samples taken so far. *)
Lemma signal_range : forall h pv lo hi, (forall k, 0 < h k) -> lo <= 25 <= hi ->
  (forall k, lo <= pv k <= hi) -> forall tau v, signal h pv tau v -> lo <= v <= hi.
Proof.
  intros h pv lo hi P I R tau v [[_ ->]|[i [A E]]]; [exact I|].
  assert (S0 : lo <= sample pv i <= hi) by (destruct i; [exact I|apply R]).
  assert (S1 : lo <= sample pv (S i) <= hi) by apply R.
  pose proof (P i) as Q. cbn [clock] in A.
  set (x := (tau - clock h i) / h i) in *.
  assert (X : 0 <= x <= 1).
  { unfold x. split.
    - apply Rmult_le_pos; [lra|]. left. apply Rinv_0_lt_compat, Q.
    - apply (Rmult_le_reg_r (h i)); [exact Q|]. unfold Rdiv.
      rewrite Rmult_assoc, Rinv_l by lra. lra. }
  rewrite E. set (a := sample pv i) in *. set (b := sample pv (S i)) in *.
  assert (Y : a + (b - a) * x = (1 - x) * a + x * b) by ring. rewrite Y.
  split; nra.
Qed.

(** ** Steps longer than the dead time *)

Section Long.
Variable junk : nat -> nat -> R.
Variables (D x y : R).
Hypothesis Dpos : 0 < D.
Hypothesis xD : D <= x.

Definition long_at := dead_at junk D (fun _ => x) (fun _ => y).

Lemma long_inv : forall k,
  length (d_age (long_at k)) = buf_len D /\ length (d_pv (long_at k)) = buf_len D /\
  nth 0 (d_age (long_at k)) 0 = 0 /\
  nth 0 (d_pv (long_at k)) 0 = (if Nat.eq_dec k 0 then 25 else y).
Proof.
  assert (LP : (0 < buf_len D)%nat).
  { destruct (buf_len_ge D Dpos) as [A _]. destruct (buf_len D); [cbn in A; lra|lia]. }
  unfold long_at. induction k as [|k (A & B & C & E)].
  - cbn [dead_at dead_init d_age d_pv]. rewrite !repeat_length, nth_rep0, nth_rep by exact LP.
    repeat split; reflexivity.
  - cbn [dead_at]. set (s := dead_at _ _ _ _ k) in *. clearbody s.
    unfold dead_step. cbn [d_age d_pv].
    assert (F : first_old D (map (fun a => a + x) (d_age s)) = Some O).
    { destruct (d_age s) as [|a r]; [cbn in A; lia|]. cbn in C |- *. rewrite C.
      destruct (Rle_dec D (0 + x)); [reflexivity|lra]. }
    rewrite F, !push_len, zero_len by lia. rewrite map_length, !push_0
      by (rewrite ?zero_len, ?map_length; lia).
    repeat split; auto.
Qed.
Lemma long_val : forall k,
  d_val (long_at (S k)) = d_val (long_at k)
    + (nth 0 (d_pv (long_at k)) 0 - d_val (long_at k)) / D * x.
Proof.
  intros k. destruct (long_inv k) as (A & B & C & _). unfold long_at in *. cbn [dead_at].
  set (s := dead_at _ _ _ _ k) in *. clearbody s.
  assert (LP : (0 < buf_len D)%nat).
  { destruct (buf_len_ge D Dpos) as [Q _]. destruct (buf_len D); [cbn in Q; lra|lia]. }
  unfold dead_step. cbn [d_val].
  assert (F : first_old D (map (fun a => a + x) (d_age s)) = Some O).
  { destruct (d_age s) as [|a r]; [cbn in A; lia|]. cbn in C |- *. rewrite C.
    destruct (Rle_dec D (0 + x)); [reflexivity|lra]. }
  rewrite F. rewrite !rd_in by (rewrite ?map_length; lia).
  rewrite nth_add by lia. rewrite C. rewrite Rplus_0_l. reflexivity.
Qed.
Lemma long_closed : forall k, d_val (long_at (S k)) = y + (25 - y) * (1 - x / D) ^ k.
Proof.
  induction k as [|k IH].
  - rewrite long_val. destruct (long_inv O) as (_ & _ & _ & E). rewrite E.
    destruct (Nat.eq_dec 0 0) as [_|N]; [|lia]. unfold long_at. cbn. field. lra.
  - rewrite long_val. destruct (long_inv (S k)) as (_ & _ & _ & E). rewrite E.
    destruct (Nat.eq_dec (S k) 0) as [N|_]; [lia|]. rewrite IH. cbn [pow]. field. lra.
Qed.
End Long.

(** ** Steps too short for the buffer *)

Section Short.
Variable junk : nat -> nat -> R.
Variables (D x : R).
Hypothesis Dpos : 0 < D.
Hypothesis xpos : 0 < x.
Hypothesis short : INR (S (buf_len D)) * x < D.

Definition short_at := dead_at junk D (fun _ => x) (fun _ => 25).

Lemma short_inv : forall k, (k <= buf_len D)%nat ->
  length (d_age (short_at k)) = buf_len D /\ length (d_pv (short_at k)) = buf_len D /\
  (forall i, (i < buf_len D)%nat -> nth i (d_age (short_at k)) 0 <= INR k * x) /\
  (forall i, (i < buf_len D)%nat -> nth i (d_pv (short_at k)) 0 = 25) /\
  nextidx (short_at k) = k /\ d_val (short_at k) = 25.
Proof.
  unfold short_at. induction k as [|k IH]; intros K.
  - cbn [dead_at dead_init d_age d_pv d_val]. rewrite !repeat_length.
    split; [reflexivity|]. split; [reflexivity|]. split.
    + intros i I. rewrite nth_rep0. cbn. lra.
    + split; [intros i I; apply nth_rep, I|]. split; reflexivity.
  - destruct (IH ltac:(lia)) as (A & B & C & E & N & V). clear IH. cbn [dead_at].
    set (s := dead_at _ _ _ _ k) in *. clearbody s.
    assert (F : first_old D (map (fun a => a + x) (d_age s)) = None).
    { destruct (first_old D (map (fun a => a + x) (d_age s))) as [i|] eqn:Q; [|reflexivity].
      destruct (first_old_some _ _ _ Q) as (Q1 & Q2 & _). rewrite map_length, A in Q1.
      rewrite nth_add in Q2 by lia. specialize (C i Q1).
      assert (INR k * x + x <= INR (S (buf_len D)) * x).
      { rewrite <- (Rmult_1_l x) at 2. rewrite <- Rmult_plus_distr_r, <- S_INR.
        apply Rmult_le_compat_r; [lra|]. apply le_INR. lia. }
      lra. }
    unfold dead_step. fold (nextidx s). rewrite F, N. cbn [d_age d_pv d_val].
    rewrite !push_len, zero_len by exact I. rewrite map_length.
    split; [exact A|]. split; [exact B|]. split; [|split; [|split]].
    + intros i Q. rewrite S_INR. destruct i as [|i].
      * rewrite push_0 by (rewrite zero_len, map_length; [lia|exact I]).
        pose proof (pos_INR k). nra.
      * rewrite push_S by (rewrite zero_len, map_length; [lia|exact I]).
        rewrite zero_none by (rewrite map_length; lia).
        rewrite nth_add by lia. specialize (C i ltac:(lia)). lra.
    + intros i Q. destruct i as [|i]; [apply push_0; lia|].
      rewrite push_S by lia. apply E. lia.
    + unfold nextidx. cbn. reflexivity.
    + rewrite !rd_in by (rewrite ?map_length; lia). rewrite E by lia. rewrite V.
      unfold Rdiv. rewrite Rminus_diag_eq by reflexivity. lra.
Qed.
Lemma short_val : d_val (short_at (S (buf_len D))) =
  25 + (junk (buf_len D) (buf_len D) - 25) / (D - (junk (buf_len D) (buf_len D) - x)) * x.
Proof.
  destruct (short_inv (buf_len D) (le_n _)) as (A & B & C & E & N & V).
  unfold short_at in *. cbn [dead_at]. set (s := dead_at _ _ _ _ (buf_len D)) in *. clearbody s.
  assert (F : first_old D (map (fun a => a + x) (d_age s)) = None).
  { destruct (first_old D (map (fun a => a + x) (d_age s))) as [i|] eqn:Q; [|reflexivity].
    destruct (first_old_some _ _ _ Q) as (Q1 & Q2 & _). rewrite map_length, A in Q1.
    rewrite nth_add in Q2 by lia. specialize (C i Q1). rewrite S_INR in short. lra. }
  unfold dead_step. fold (nextidx s). rewrite F, N. cbn [d_val].
  rewrite !rd_out by (rewrite ?map_length; lia). rewrite V. reflexivity.
Qed.
End Short.
