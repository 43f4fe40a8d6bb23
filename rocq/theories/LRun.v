(** Proofs for the main loop and the result arrays (C06, C07). *)
From Coq Require Import Reals List Arith ZArith Lra Lia.
From Verif Require Import MRun SRun.
Import ListNotations.
Open Scope R_scope.

Lemma setn_app {A} (l r : list A) x v : setn (l ++ x :: r) (length l) v = Some (l ++ v :: r).
Proof. induction l; cbn; [reflexivity|]. rewrite IHl; reflexivity. Qed.

Lemma setn_out {A} (l : list A) i v : (length l <= i)%nat -> setn l i v = None.
Proof.
  revert i; induction l; cbn; intros i H; [reflexivity|].
  destruct i; [lia|]. rewrite IHl by lia. reflexivity.
Qed.

Lemma seq_snoc a n : seq a (S n) = seq a n ++ [(a + n)%nat].
Proof. replace (S n) with (n + 1)%nat by lia. rewrite seq_app. reflexivity. Qed.

Lemma repeat_cons' {A} (x : A) n : (0 < n)%nat -> repeat x n = x :: repeat x (n - 1).
Proof. destruct n; [lia|]. cbn. rewrite Nat.sub_0_r. reflexivity. Qed.

Lemma firstn_exact {A} k (l r : list A) : k = length l -> firstn k (l ++ r) = l.
Proof. intros ->. rewrite firstn_app, Nat.sub_diag, firstn_O, app_nil_r, firstn_all. reflexivity. Qed.

Lemma nfloor_up : forall x, exists n, x < INR n.
Proof.
  intros x. exists (Z.to_nat (up x)). destruct (archimed x) as [H _].
  destruct (Z_lt_le_dec (up x) 0) as [H0|H0].
  - apply IZR_lt in H0. generalize (pos_INR (Z.to_nat (up x))). lra.
  - rewrite INR_IZR_INZ, Z2Nat.id by exact H0. lra.
Qed.

Section Proofs.
Context {Row : Type}.
Variable zero row0 : Row.
Variable steps : nat -> R * Row.
Notation row := (row_at row0 steps).
Notation z := (0, zero).

Definition blk (a k : nat) := map row (seq a k).
Lemma blk_len a k : length (blk a k) = k.
Proof. unfold blk. rewrite map_length, seq_length. reflexivity. Qed.
Lemma blk_snoc a k : blk a (S k) = blk a k ++ [row (a + k)].
Proof. unfold blk. rewrite seq_snoc, map_app. reflexivity. Qed.
Lemma blk_app a k l : blk a (k + l) = blk a k ++ blk (a + k) l.
Proof. unfold blk. rewrite seq_app, map_app. reflexivity. Qed.

Lemma removelast_snoc {A} (l : list A) x : removelast (l ++ [x]) = l.
Proof. rewrite removelast_app by discriminate. cbn. apply app_nil_r. Qed.

(** Disk mode: state after [q*N + i] steps. *)
Definition dst (N q i : nat) : rst :=
  {| r_t := time_after steps (q * N + i); r_step := S i; r_num := N; r_total := q * N;
     r_buf := blk (q * N) (S i) ++ repeat z (N - i);
     r_disk := blk 0 (q * N) |}.

Lemma set_next a i k :
  (0 < k)%nat ->
  setn (blk a (S i) ++ repeat z k) (S i) (row (a + S i)) =
  Some (blk a (S (S i)) ++ repeat z (k - 1)).
Proof.
  intros Hk. rewrite (repeat_cons' z k Hk).
  replace (S i) with (length (blk a (S i))) at 2 by apply blk_len.
  rewrite setn_app, (blk_snoc a (S i)), <- app_assoc. reflexivity.
Qed.

Lemma time_step k h : h = fst (steps k) -> time_after steps k + h = time_after steps (S k).
Proof. intros ->. reflexivity. Qed.

Lemma run_disk_from : forall N cap tf n,
  (1 <= N)%nat -> ends_at steps tf n -> (match cap with Some c => c = S N | None => True end) ->
  forall d q i fuel, (i < N)%nat -> (q * N + i + d = n)%nat -> (d <= fuel)%nat ->
  run_loop zero fuel Disk cap tf steps (q * N + i) (dst N q i) =
  if ((n =? q * N + i)%nat || negb (n mod N =? 0)%nat)%bool then RDone (history row0 steps n)
  else RIndexError.
Proof.
  intros N cap tf n HN [Hlt Hge] Hcap. induction d; intros q i fuel Hi Hn Hf.
  - assert (E : (q * N + i = n)%nat) by lia. rewrite E, Nat.eqb_refl. cbn [orb].
    destruct fuel; cbn [run_loop dst r_t]; rewrite E;
      (destruct (Rlt_dec (time_after steps n) tf) as [C|_]; [lra|]).
    all: unfold finalize, free_memory; cbn [dst r_buf r_step r_total r_disk]; unfold getn.
    all: destruct (nth_error (blk (q * N) (S i) ++ repeat z (N - i)) (S i)) eqn:G;
      [|exfalso; apply nth_error_None in G; rewrite app_length, blk_len, repeat_length in G; lia].
    all: cbn [r_buf r_step r_total r_disk].
    all: rewrite (firstn_exact (S i)) by (rewrite blk_len; reflexivity).
    all: change (blk (q * N) (S i)) with (blk (0 + q * N) (S i)).
    all: rewrite <- blk_app, firstn_exact by (rewrite blk_len; reflexivity).
    all: unfold history; f_equal; unfold blk; do 2 f_equal; lia.
  - destruct fuel as [|fuel]; [lia|].
    assert (Hk : (q * N + i < n)%nat) by lia.
    cbn [run_loop]. cbn [dst r_t].
    destruct (Rlt_dec (time_after steps (q * N + i)) tf) as [_|C]; [|exfalso; apply C, Hlt; lia].
    unfold body.
    assert (Hc : match cap with Some n0 => (n0 <=? r_step (dst N q i))%nat | None => false end = false).
    { destruct cap; [|reflexivity]. subst. cbn [dst r_step]. apply Nat.leb_gt. lia. }
    rewrite Hc. clear Hc. cbn [dst r_t r_step r_num r_total r_buf r_disk].
    replace (time_after steps (q * N + i) + fst (steps (q * N + i)), snd (steps (q * N + i)))
      with (row (q * N + S i)) by (unfold row_at; rewrite Nat.add_succ_r; reflexivity).
    rewrite set_next by lia.
    change (time_after steps (q * N + i) + fst (steps (q * N + i)))
      with (time_after steps (S (q * N + i))).
    destruct (Nat.eqb_spec (S i) N) as [Ei|Ei].
    + destruct (Rlt_dec (time_after steps (S (q * N + i))) tf) as [Hl|Hl].
      * (* flush *)
        assert (HS : (S (q * N + i) <> n)%nat) by (intros E; rewrite E in Hl; lra).
        unfold free_memory. cbn [r_t r_step r_num r_total r_buf r_disk]. unfold getn.
        replace (N - i - 1)%nat with 0%nat by lia. cbn [repeat]. rewrite app_nil_r.
        rewrite (blk_snoc (q * N) (S i)), removelast_snoc.
        rewrite nth_error_app2 by (rewrite blk_len; lia).
        rewrite blk_len, Nat.sub_diag. cbn [nth_error].
        cbn [r_t r_step r_num r_total r_buf r_disk].
        specialize (IHd (S q) 0%nat fuel ltac:(lia) ltac:(cbn; lia) ltac:(lia)).
        replace (S q * N + 0)%nat with (S (q * N + i)) in IHd by (cbn; lia).
        match goal with |- run_loop _ _ _ _ _ _ _ ?s = _ => replace s with (dst N (S q) 0) end.
        -- rewrite IHd.
           replace (n =? S (q * N + i))%nat with false by (symmetry; apply Nat.eqb_neq; lia).
           replace (n =? q * N + i)%nat with false by (symmetry; apply Nat.eqb_neq; lia).
           reflexivity.
        -- unfold dst. f_equal.
           ++ f_equal. cbn. lia.
           ++ cbn. lia.
           ++ rewrite app_length, blk_len. cbn [length]. unfold blk at 1. cbn [seq map app].
              replace (S q * N)%nat with (q * N + S i)%nat by (cbn; lia).
              f_equal. f_equal. lia.
           ++ change (blk (q * N) (S i)) with (blk (0 + q * N) (S i)). rewrite <- blk_app.
              f_equal. cbn; lia.
      * (* buffer full exactly at the end *)
        assert (HS : (S (q * N + i) = n)%nat).
        { destruct (Nat.eq_dec (S (q * N + i)) n); [assumption|].
          exfalso; apply Hl, Hlt; lia. }
        replace (n =? q * N + i)%nat with false by (symmetry; apply Nat.eqb_neq; lia).
        replace (n mod N)%nat with 0%nat
          by (replace n with (S q * N)%nat by (cbn; lia); symmetry; apply Nat.mod_mul; lia).
        cbn [Nat.eqb negb orb].
        destruct fuel; cbn [run_loop r_t];
          (destruct (Rlt_dec (time_after steps (S (q * N + i))) tf); [contradiction|]).
        all: unfold finalize, free_memory; cbn [r_buf r_step r_total r_disk]; unfold getn.
        all: match goal with |- context [nth_error ?l ?k] =>
             destruct (nth_error l k) eqn:G; [|reflexivity];
             assert (G' : nth_error l k <> None) by congruence;
             apply nth_error_Some in G';
             rewrite app_length, blk_len, repeat_length in G'; lia end.
    + specialize (IHd q (S i) fuel ltac:(lia) ltac:(lia) ltac:(lia)).
      replace (q * N + S i)%nat with (S (q * N + i)) in IHd by lia.
      match goal with |- run_loop _ _ _ _ _ _ _ ?s = _ => replace s with (dst N q (S i)) end.
      * rewrite IHd.
        replace (n =? q * N + i)%nat with false by (symmetry; apply Nat.eqb_neq; lia).
        destruct (Nat.eqb_spec n (S (q * N + i))) as [En|En]; [|reflexivity].
        cbn [orb]. rewrite En.
        replace (S (q * N + i)) with (S i + q * N)%nat by lia.
        rewrite Nat.mod_add, Nat.mod_small by lia. reflexivity.
      * unfold dst. replace (q * N + S i)%nat with (S (q * N + i)) by lia.
        replace (N - S i)%nat with (N - i - 1)%nat by lia. reflexivity.
Qed.

Theorem run_disk : forall N captures tf n fuel,
  (1 <= N)%nat -> ends_at steps tf n -> (n <= fuel)%nat ->
  run zero fuel Disk captures N tf row0 steps =
  if ((n =? 0)%nat || negb (n mod N =? 0)%nat)%bool then RDone (history row0 steps n) else RIndexError.
Proof.
  intros N captures tf n fuel HN He Hf. unfold run.
  change (run_init zero N row0) with
    {| r_t := 0; r_step := 1; r_num := N; r_total := 0;
       r_buf := (0, row0) :: repeat z N; r_disk := [] |}.
  change 0%nat with (0 * N + 0)%nat at 1.
  replace {| r_t := 0; r_step := 1; r_num := N; r_total := 0;
       r_buf := (0, row0) :: repeat z N; r_disk := [] |} with (dst N 0 0)
    by (unfold dst; cbn; rewrite Nat.sub_0_r; reflexivity).
  rewrite (run_disk_from N (if captures then Some (S N) else None) tf n HN He
    ltac:(destruct captures; auto) n 0 0 fuel) by lia.
  reflexivity.
Qed.

(** Memory mode: state after [n] steps with room for [M]. *)
Definition mst (M n : nat) : rst :=
  {| r_t := time_after steps n; r_step := S n; r_num := M; r_total := 0;
     r_buf := blk 0 (S n) ++ repeat z (M - n); r_disk := [] |}.

Lemma run_mem_from : forall base cap tf n, (1 <= base)%nat -> ends_at steps tf n ->
  forall d k M fuel, (k + d = n)%nat -> (d <= fuel)%nat ->
  (k < M \/ k = n /\ k <= M)%nat ->
  (match cap with Some c => S k <= c | None => True end)%nat ->
  run_loop zero fuel (Mem base) cap tf steps k (mst M k) =
  match cap with
  | Some c => if (n <? c)%nat then RDone (history row0 steps n) else ROutOfBounds
  | None => RDone (history row0 steps n)
  end.
Proof.
  intros base cap tf n HB [Hlt Hge]. induction d; intros k M fuel Hn Hf HM Hcap.
  - assert (E : (k = n)%nat) by lia. subst k.
    assert (Ef : run_loop zero fuel (Mem base) cap tf steps n (mst M n) =
                 RDone (history row0 steps n)).
    { destruct fuel; cbn [run_loop mst r_t];
      (destruct (Rlt_dec (time_after steps n) tf) as [C|_]; [lra|]);
      unfold finalize; cbn [mst r_step r_total r_disk r_buf app];
      rewrite Nat.add_0_r, firstn_exact by (symmetry; apply (blk_len 0 (S n))); reflexivity. }
    rewrite Ef. destruct cap as [c|]; [|reflexivity].
    destruct (Nat.ltb_spec n c); [reflexivity|lia].
  - destruct fuel as [|fuel]; [lia|].
    cbn [run_loop]. cbn [mst r_t].
    destruct (Rlt_dec (time_after steps k) tf) as [_|C]; [|exfalso; apply C, Hlt; lia].
    unfold body. cbn [mst r_t r_step r_num r_total r_buf r_disk].
    destruct (match cap with Some n0 => (n0 <=? S k)%nat | None => false end) eqn:Hc.
    + destruct cap as [c|]; [|discriminate]. apply Nat.leb_le in Hc.
      destruct (Nat.ltb_spec n c); [lia|reflexivity].
    + replace (time_after steps k + fst (steps k), snd (steps k)) with (row (0 + S k)) by reflexivity.
      rewrite set_next by lia.
      change (time_after steps k + fst (steps k)) with (time_after steps (S k)).
      assert (Hc' : match cap with Some c => (S (S k) <= c)%nat | None => True end).
      { destruct cap; [|exact I]. apply Nat.leb_gt in Hc. lia. }
      destruct (Nat.eqb_spec (S k) M) as [Ek|Ek].
      * destruct (Rlt_dec (time_after steps (S k)) tf) as [Hl|Hl].
        -- unfold free_memory. cbn [r_t r_step r_num r_total r_buf r_disk].
           specialize (IHd (S k) (M + base)%nat fuel ltac:(lia) ltac:(lia) ltac:(lia) Hc').
           match goal with |- run_loop _ _ _ _ _ _ _ ?s = _ => replace s with (mst (M + base) (S k)) end.
           ++ exact IHd.
           ++ unfold mst. f_equal.
              ** rewrite !app_length, !repeat_length, blk_len. lia.
              ** rewrite <- app_assoc, <- repeat_app. do 2 f_equal. lia.
        -- assert (HS : (S k = n)%nat).
           { destruct (Nat.eq_dec (S k) n); [assumption|]. exfalso; apply Hl, Hlt; lia. }
           specialize (IHd (S k) M fuel ltac:(lia) ltac:(lia) ltac:(lia) Hc').
           match goal with |- run_loop _ _ _ _ _ _ _ ?s = _ => replace s with (mst M (S k)) end.
           ++ exact IHd.
           ++ unfold mst. replace (M - S k)%nat with (M - k - 1)%nat by lia. reflexivity.
      * specialize (IHd (S k) M fuel ltac:(lia) ltac:(lia) ltac:(lia) Hc').
        match goal with |- run_loop _ _ _ _ _ _ _ ?s = _ => replace s with (mst M (S k)) end.
        -- exact IHd.
        -- unfold mst. replace (M - S k)%nat with (M - k - 1)%nat by lia. reflexivity.
Qed.

Theorem run_mem : forall N base captures tf n fuel,
  (1 <= N)%nat -> (1 <= base)%nat -> ends_at steps tf n -> (n <= fuel)%nat ->
  run zero fuel (Mem base) captures N tf row0 steps =
  if (captures && (N <? n)%nat)%bool then ROutOfBounds else RDone (history row0 steps n).
Proof.
  intros N base captures tf n fuel HN HB He Hf. unfold run.
  replace (run_init zero N row0) with (mst N 0)
    by (unfold mst, run_init; cbn; rewrite Nat.sub_0_r; reflexivity).
  rewrite (run_mem_from base (if captures then Some (S N) else None) tf n HB He n 0 N fuel);
    try lia.
  - destruct captures; [|reflexivity]. cbn [andb].
    destruct (Nat.ltb_spec n (S N)), (Nat.ltb_spec N n); (reflexivity || lia).
  - destruct captures; [lia|exact I].
Qed.

(** Steps bounded below reach any timeframe. *)
Lemma reach_end : forall tf hmin, 0 < hmin -> (forall k, hmin <= fst (steps k)) ->
  exists n, ends_at steps tf n /\ hmin * INR n < Rmax 0 tf + hmin.
Proof.
  intros tf hmin Hp Hs.
  assert (Hge : forall n, hmin * INR n <= time_after steps n).
  { induction n; [cbn; lra|]. rewrite S_INR. cbn [time_after]. specialize (Hs n). lra. }
  assert (Hfin : forall d n, (forall k, (k < n)%nat -> time_after steps k < tf) ->
    tf <= time_after steps (n + d) -> exists m, ends_at steps tf m).
  { induction d; intros n Hn Hd.
    - exists n. rewrite Nat.add_0_r in Hd. split; assumption.
    - destruct (Rle_lt_dec tf (time_after steps n)) as [H|H]; [exists n; split; assumption|].
      apply (IHd (S n)); [|replace (S n + d)%nat with (n + S d)%nat by lia; exact Hd].
      intros k Hk. destruct (Nat.eq_dec k n); [subst; assumption|apply Hn; lia]. }
  assert (Hm : exists m, tf <= hmin * INR m).
  { destruct (nfloor_up (tf / hmin)) as [m Hm]. exists m.
    apply Rmult_lt_compat_l with (r := hmin) in Hm; [|lra].
    replace (hmin * (tf / hmin)) with tf in Hm by (field; lra). lra. }
  destruct Hm as [m Hm].
  destruct (Hfin m 0%nat) as [n Hn]; [intros; lia| |].
  - cbn. specialize (Hge m). lra.
  - exists n. split; [exact Hn|]. destruct n as [|n].
    + cbn. generalize (Rmax_l 0 tf). lra.
    + rewrite S_INR. destruct Hn as [Hn _]. specialize (Hn n ltac:(lia)). specialize (Hge n).
      generalize (Rmax_r 0 tf). lra.
Qed.

(** The history: time stamps start at 0, advance by the step sizes; last step only overshoots. *)
Lemma history_times : forall n d,
  length (history row0 steps n) = S n /\
  fst (nth 0 (history row0 steps n) d) = 0 /\
  (forall k, (k < n)%nat ->
     fst (nth (S k) (history row0 steps n) d) =
     fst (nth k (history row0 steps n) d) + fst (steps k)).
Proof.
  intros n d. unfold history. rewrite map_length, seq_length. repeat split.
  intros k Hk.
  assert (E : forall j, (j <= n)%nat -> nth j (map row (seq 0 (S n))) d = row j).
  { intros j Hj. rewrite nth_indep with (d' := row 0) by (rewrite map_length, seq_length; lia).
    rewrite map_nth, seq_nth by lia. reflexivity. }
  rewrite !E by lia. reflexivity.
Qed.

End Proofs.

(** C06 assembled. *)
Lemma run_done_history : forall {Row} (zero row0 : Row) steps m captures N tf n fuel rows,
  (1 <= N)%nat -> (match m with Disk => True | Mem b => (1 <= b)%nat end) ->
  ends_at steps tf n -> (n <= fuel)%nat ->
  run zero fuel m captures N tf row0 steps = RDone rows -> rows = history row0 steps n.
Proof.
  intros Row zero row0 steps m captures N tf n fuel rows HN Hm He Hf H.
  destruct m.
  - rewrite (run_disk zero row0 steps N captures tf n fuel HN He Hf) in H.
    destruct (_ || _)%bool in H; congruence.
  - rewrite (run_mem zero row0 steps N base captures tf n fuel HN Hm He Hf) in H.
    destruct (_ && _)%bool in H; congruence.
Qed.

Lemma run_times : forall {Row} (zero row0 : Row) steps m captures N tf n fuel rows,
  (1 <= N)%nat -> (match m with Disk => True | Mem b => (1 <= b)%nat end) ->
  (forall k, 0 < fst (steps k)) ->
  ends_at steps tf n -> (n <= fuel)%nat ->
  run zero fuel m captures N tf row0 steps = RDone rows ->
  let t := fun k => fst (nth k rows (0, zero)) in
  length rows = S n /\ t 0%nat = 0 /\
  (forall k, (k < n)%nat -> t (S k) = t k + fst (steps k) /\ t k < t (S k) /\ t k < tf) /\
  tf <= t n /\
  (forall k, n = S k -> t n - tf < fst (steps k)).
Proof.
  intros Row zero row0 steps m captures N tf n fuel rows HN Hm Hp He Hf H.
  apply (run_done_history zero row0 steps m captures N tf n fuel rows HN Hm He Hf) in H.
  subst rows. intros t. destruct (history_times row0 steps n (0, zero)) as (Hl & H0 & Hs).
  assert (Et : forall k, (k <= n)%nat -> t k = time_after steps k).
  { induction k; intros Hk; [exact H0|]. unfold t. rewrite Hs by lia. fold (t k).
    rewrite IHk by lia. reflexivity. }
  destruct He as [Hlt Hge].
  split; [exact Hl|]. split; [exact H0|]. split; [|split].
  - intros k Hk. rewrite !Et by lia. cbn [time_after]. specialize (Hp k). specialize (Hlt k Hk).
    repeat split; lra.
  - rewrite Et by lia. exact Hge.
  - intros k ->. rewrite Et by lia. cbn [time_after]. specialize (Hlt k ltac:(lia)). lra.
Qed.

(** Concrete runs. *)
Definition ex_steps (k : nat) : R * nat := (1, S k).
Lemma ex_steps_time : forall n, time_after ex_steps n = INR n.
Proof. induction n; [reflexivity|]. cbn [time_after]. rewrite IHn, S_INR. reflexivity. Qed.
Lemma ex_steps_end : forall n, ends_at ex_steps (INR n) n.
Proof.
  intros n; split.
  - intros k Hk. rewrite ex_steps_time. apply lt_INR, Hk.
  - rewrite ex_steps_time. lra.
Qed.

Lemma run_disk_ok : forall {Row} (zero row0 : Row) steps N captures tf n fuel,
  (1 <= N)%nat -> ends_at steps tf n -> (n <= fuel)%nat -> ~ Nat.divide N n ->
  run zero fuel Disk captures N tf row0 steps = RDone (history row0 steps n).
Proof.
  intros Row zero row0 steps N captures tf n fuel HN He Hf Hd. rewrite (run_disk zero row0 steps N captures tf n fuel HN He Hf).
  destruct (Nat.eqb_spec (n mod N) 0) as [E|E].
  - exfalso. apply Hd. apply Nat.mod_divide; [lia|exact E].
  - rewrite Bool.orb_true_r. reflexivity.
Qed.

Lemma run_disk_full : forall {Row} (zero row0 : Row) steps N captures tf n fuel,
  (1 <= N)%nat -> ends_at steps tf n -> (n <= fuel)%nat -> (1 <= n)%nat -> Nat.divide N n ->
  run zero fuel Disk captures N tf row0 steps = RIndexError.
Proof.
  intros Row zero row0 steps N captures tf n fuel HN He Hf Hn Hd.
  rewrite (run_disk zero row0 steps N captures tf n fuel HN He Hf).
  apply Nat.mod_divide in Hd; [|lia]. rewrite Hd.
  destruct (Nat.eqb_spec n 0); [lia|reflexivity].
Qed.

Lemma run_mem_live : forall {Row} (zero row0 : Row) steps N base tf n fuel,
  (1 <= N)%nat -> (1 <= base)%nat -> ends_at steps tf n -> (n <= fuel)%nat ->
  run zero fuel (Mem base) false N tf row0 steps = RDone (history row0 steps n).
Proof. intros. rewrite (run_mem zero row0 steps N base false tf n fuel) by assumption. reflexivity. Qed.

Lemma run_mem_captured : forall {Row} (zero row0 : Row) steps N base tf n fuel,
  (1 <= N)%nat -> (1 <= base)%nat -> ends_at steps tf n -> (n <= fuel)%nat -> (N < n)%nat ->
  run zero fuel (Mem base) true N tf row0 steps = ROutOfBounds.
Proof.
  intros Row zero row0 steps N base tf n fuel HN HB He Hf Hn.
  rewrite (run_mem zero row0 steps N base true tf n fuel) by assumption.
  cbn [andb]. destruct (Nat.ltb_spec N n); [reflexivity|lia].
Qed.

Lemma run_mem_small : forall {Row} (zero row0 : Row) steps N base tf n fuel,
  (1 <= N)%nat -> (1 <= base)%nat -> ends_at steps tf n -> (n <= fuel)%nat -> (n <= N)%nat ->
  run zero fuel (Mem base) true N tf row0 steps = RDone (history row0 steps n).
Proof.
  intros Row zero row0 steps N base tf n fuel HN HB He Hf Hn.
  rewrite (run_mem zero row0 steps N base true tf n fuel) by assumption.
  cbn [andb]. destruct (Nat.ltb_spec N n); [lia|reflexivity].
Qed.
