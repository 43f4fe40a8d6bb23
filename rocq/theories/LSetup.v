(** Proofs for C188: runs whose arrays do not fit the number of steps. *)
From Coq Require Import Reals List Arith Lra Lia.
From Verif Require Import MRun SRun LRun MSetup.
Import ListNotations.
Open Scope R_scope.

Lemma setn_in {A} (l : list A) i v : (i < length l)%nat -> exists l', setn l i v = Some l' /\ length l' = length l.
Proof.
  revert i. induction l as [|x l IH]; intros i H; [cbn in H; lia|]. destruct i as [|i]; cbn [setn].
  - eexists. split; reflexivity.
  - destruct (IH i) as (l' & -> & L); [cbn in H; lia|]. eexists. split; [reflexivity|]. cbn. congruence.
Qed.
Lemma repeat_removelast {A} (x : A) k : removelast (repeat x (S k)) = repeat x k.
Proof. induction k as [|k IH]; [reflexivity|]. change (repeat x (S (S k))) with (x :: repeat x (S k)). cbn [removelast]. rewrite IH. destruct k; reflexivity. Qed.
Lemma firstn_repeat {A} (x : A) k n : (n <= k)%nat -> firstn n (repeat x k) = repeat x n.
Proof. revert k. induction n as [|n IH]; intros k H; [reflexivity|]. destruct k; [lia|]. cbn. rewrite IH by lia. reflexivity. Qed.

Section Misfit.
Context {Row : Type}.
Variables (zero row0 : Row) (steps : nat -> R * Row) (N0 N1 n : nat) (tf : R) (cap : option nat).
Notation row := (row_at row0 steps).
Notation z := (0, zero).
Notation blk := (blk row0 steps).
Hypothesis End : ends_at steps tf n.
Hypothesis Hcap : match cap with Some c => c = S N0 | None => True end.

(** State before the first flush or enlargement. *)
Definition st (i : nat) : rst :=
  {| r_t := time_after steps i; r_step := S i; r_num := N1; r_total := 0; r_buf := blk 0 (S i) ++ repeat z (N0 - i); r_disk := [] |}.

(** [chunk]: what the first flush stores. *)
Definition chunk : list (R * Row) := blk 0 (S N1) ++ repeat z (N0 - N1 - 1).
Record later (k : nat) (s : rst) : Prop := {
  lt_t : r_t s = time_after steps k; lt_step : (r_step s <= N1 \/ k = n)%nat; lt_step2 : (r_step s <= S N1)%nat;
  lt_num : r_num s = N1; lt_sum : (r_step s + r_total s = S k)%nat; lt_buf : length (r_buf s) = S N0;
  lt_disk : exists rest, r_disk s = chunk ++ rest }.

Lemma cap_open (s : @rst Row) : (r_step s <= N0)%nat -> match cap with Some c => (c <=? r_step s)%nat | None => false end = false.
Proof. intro H. destruct cap as [c|]; [|reflexivity]. subst. apply Nat.leb_gt. lia. Qed.

Lemma later_run : (1 <= N1 < N0)%nat -> (S n <= N0)%nat -> forall d k s fuel, (k + d = n)%nat -> (d <= fuel)%nat -> later k s ->
  run_loop zero fuel Disk cap tf steps k s = RDone (firstn (S n) chunk).
Proof.
  intros H01 Hn. destruct End as [Hlt Hge]. induction d as [|d IH]; intros k s fuel Ek Hf I.
  - assert (k = n) by lia. subst k. destruct I as [It Is Is2 In Im Ib [rest Id]].
    assert (G : exists x, getn (r_buf s) (r_step s) = Some x).
    { unfold getn. destruct (nth_error (r_buf s) (r_step s)) eqn:G; [eexists; reflexivity|]. apply nth_error_None in G. lia. }
    destruct G as [x G].
    assert (F : finalize zero Disk s = RDone (firstn (S n) chunk)).
    { unfold finalize, free_memory. rewrite G. cbn [r_step r_total r_disk r_buf]. f_equal.
      replace (0 + (r_total s + r_step s))%nat with (S n) by lia. rewrite Id, <- !app_assoc, firstn_app.
      replace (S n - length chunk)%nat with 0%nat; [cbn [firstn]; rewrite app_nil_r; reflexivity|].
      unfold chunk. rewrite app_length, blk_len, repeat_length. lia. }
    destruct fuel; cbn [run_loop]; rewrite It; (destruct (Rlt_dec (time_after steps n) tf) as [C|_]; [lra|]); exact F.
  - destruct fuel as [|fuel]; [lia|]. destruct I as [It Is Is2 In Im Ib [rest Id]].
    cbn [run_loop]. rewrite It. destruct (Rlt_dec (time_after steps k) tf) as [_|C]; [|exfalso; apply C, Hlt; lia].
    unfold body. rewrite cap_open by lia.
    rewrite It. change (time_after steps k + fst (steps k)) with (time_after steps (S k)).
    destruct (setn_in (r_buf s) (r_step s) (time_after steps (S k), snd (steps k))) as (buf & -> & L); [lia|].
    cbn [r_step r_num]. rewrite In. destruct (Nat.eqb_spec (r_step s) N1) as [E|E].
    + destruct (Rlt_dec (time_after steps (S k)) tf) as [Hl|Hl].
      * unfold free_memory. cbn [r_step r_buf r_t r_num r_total r_disk]. unfold getn.
        destruct (nth_error buf (r_step s)) as [x|] eqn:G; [|apply nth_error_None in G; lia].
        apply IH; [lia|lia|]. constructor; cbn [r_t r_step r_num r_total r_buf r_disk].
        -- reflexivity.
        -- left. lia.
        -- lia.
        -- reflexivity.
        -- lia.
        -- cbn [length]. rewrite repeat_length. lia.
        -- exists (rest ++ removelast buf). rewrite Id, <- app_assoc. reflexivity.
      * assert (S k = n) by (destruct (Nat.eq_dec (S k) n); [assumption|exfalso; apply Hl, Hlt; lia]).
        apply IH; [lia|lia|]. constructor; cbn [r_t r_step r_num r_total r_buf r_disk]; try reflexivity; try lia. exists rest. exact Id.
    + apply IH; [lia|lia|]. constructor; cbn [r_t r_step r_num r_total r_buf r_disk]; try reflexivity; try lia. exists rest. exact Id.
Qed.

(** Disk saving, fewer steps than rows: the first flush stores rows that were never computed. *)
Lemma first_run : (1 <= N1 < N0)%nat -> (N1 < n)%nat -> (S n <= N0)%nat -> forall d k fuel, (k + d = N1)%nat -> (d + (n - N1) <= fuel)%nat -> (1 <= d)%nat ->
  run_loop zero fuel Disk cap tf steps k (st k) = RDone (firstn (S n) chunk).
Proof.
  intros H01 H1n Hn. destruct End as [Hlt Hge]. induction d as [|d IH]; intros k fuel Ek Hf Hd; [lia|].
  destruct fuel as [|fuel]; [lia|]. cbn [run_loop st r_t].
  destruct (Rlt_dec (time_after steps k) tf) as [_|C]; [|exfalso; apply C, Hlt; lia].
  unfold body. rewrite cap_open by (cbn; lia). cbn [st r_t r_step r_num r_total r_buf r_disk].
  replace (time_after steps k + fst (steps k), snd (steps k)) with (row (0 + S k)) by reflexivity.
  rewrite set_next by lia. change (time_after steps k + fst (steps k)) with (time_after steps (S k)).
  destruct (Nat.eqb_spec (S k) N1) as [E|E].
  - destruct (Rlt_dec (time_after steps (S k)) tf) as [_|C]; [|exfalso; apply C, Hlt; lia].
    unfold free_memory. cbn [r_step r_buf r_t r_num r_total r_disk]. unfold getn.
    destruct (nth_error (blk 0 (S (S k)) ++ repeat z (N0 - k - 1)) (S k)) as [x|] eqn:G;
      [|apply nth_error_None in G; rewrite app_length, blk_len, repeat_length in G; lia].
    apply (later_run H01 Hn (n - N1)); [lia|lia|]. constructor; cbn [r_t r_step r_num r_total r_buf r_disk]; try reflexivity; try lia.
    + cbn [length]. rewrite repeat_length, app_length, blk_len, repeat_length. lia.
    + exists []. rewrite app_nil_r. cbn [app]. unfold chunk. rewrite E.
      replace (N0 - k - 1)%nat with (S (N0 - N1 - 1)) by lia.
      rewrite removelast_app by (cbn; discriminate). rewrite repeat_removelast. reflexivity.
  - match goal with |- run_loop _ _ _ _ _ _ _ ?s = _ => replace s with (st (S k)) end.
    + apply IH; lia.
    + unfold st. replace (N0 - S k)%nat with (N0 - k - 1)%nat by lia. reflexivity.
Qed.
(** More steps than rows: the arrays end. *)
Lemma long_run : (N0 < N1)%nat -> (N0 < n)%nat -> forall m d k fuel, (k + d = N0)%nat -> (S d <= fuel)%nat ->
  run_loop zero fuel m cap tf steps k (st k) = match cap with Some _ => ROutOfBounds | None => RIndexError end.
Proof.
  intros H01 H1n m. destruct End as [Hlt Hge]. induction d as [|d IH]; intros k fuel Ek Hf.
  - destruct fuel as [|fuel]; [lia|]. cbn [run_loop st r_t].
    destruct (Rlt_dec (time_after steps k) tf) as [_|C]; [|exfalso; apply C, Hlt; lia].
    unfold body. cbn [st r_t r_step r_num r_total r_buf r_disk]. destruct cap as [c|].
    + subst c. replace (S N0 <=? S k)%nat with true by (symmetry; apply Nat.leb_le; lia). reflexivity.
    + rewrite setn_out; [reflexivity|]. rewrite app_length, blk_len, repeat_length. lia.
  - destruct fuel as [|fuel]; [lia|]. cbn [run_loop st r_t].
    destruct (Rlt_dec (time_after steps k) tf) as [_|C]; [|exfalso; apply C, Hlt; lia].
    unfold body. rewrite cap_open by (cbn; lia). cbn [st r_t r_step r_num r_total r_buf r_disk].
    replace (time_after steps k + fst (steps k), snd (steps k)) with (row (0 + S k)) by reflexivity.
    rewrite set_next by lia. change (time_after steps k + fst (steps k)) with (time_after steps (S k)).
    destruct (Nat.eqb_spec (S k) N1) as [E|E]; [lia|].
    match goal with |- run_loop _ _ _ _ _ _ _ ?s = _ => replace s with (st (S k)) end.
    + apply IH; lia.
    + unfold st. replace (N0 - S k)%nat with (N0 - k - 1)%nat by lia. reflexivity.
Qed.
(** Runs that end before either limit. *)
Lemma short_run m : (n <= N0)%nat -> (n < N1)%nat -> match m with Disk => (n < N0)%nat | Mem _ => True end ->
  forall d k fuel, (k + d = n)%nat -> (d <= fuel)%nat ->
  run_loop zero fuel m cap tf steps k (st k) = RDone (history row0 steps n).
Proof.
  intros H0 H1 HM. destruct End as [Hlt Hge]. induction d as [|d IH]; intros k fuel Ek Hf.
  - assert (k = n) by lia. subst k.
    assert (F : finalize zero m (st n) = RDone (history row0 steps n)).
    { unfold finalize, free_memory. destruct m as [|base]; cbn [st r_step r_total r_disk r_buf app].
      - unfold getn. destruct (nth_error (blk 0 (S n) ++ repeat z (N0 - n)) (S n)) as [x|] eqn:G;
          [|apply nth_error_None in G; rewrite app_length, blk_len, repeat_length in G; lia].
        cbn [r_step r_total r_disk r_buf app]. rewrite (firstn_exact (S n) (blk 0 (S n)) (repeat z (N0 - n))) by (rewrite blk_len; reflexivity).
        rewrite (firstn_exact _ (blk 0 (S n))) by (rewrite blk_len; reflexivity). reflexivity.
      - rewrite Nat.add_0_r, firstn_exact by (symmetry; apply (blk_len row0 steps 0 (S n))). reflexivity. }
    destruct fuel; cbn [run_loop st r_t]; (destruct (Rlt_dec (time_after steps n) tf) as [C|_]; [lra|]); exact F.
  - destruct fuel as [|fuel]; [lia|]. cbn [run_loop st r_t].
    destruct (Rlt_dec (time_after steps k) tf) as [_|C]; [|exfalso; apply C, Hlt; lia].
    unfold body. rewrite cap_open by (cbn; lia). cbn [st r_t r_step r_num r_total r_buf r_disk].
    replace (time_after steps k + fst (steps k), snd (steps k)) with (row (0 + S k)) by reflexivity.
    rewrite set_next by lia. change (time_after steps k + fst (steps k)) with (time_after steps (S k)).
    destruct (Nat.eqb_spec (S k) N1) as [E|E]; [lia|].
    match goal with |- run_loop _ _ _ _ _ _ _ ?s = _ => replace s with (st (S k)) end.
    + apply IH; lia.
    + unfold st. replace (N0 - S k)%nat with (N0 - k - 1)%nat by lia. reflexivity.
Qed.
End Misfit.

Lemma start_st {Row} (zero row0 : Row) steps N0 N1 :
  {| r_t := 0; r_step := 1; r_num := N1; r_total := 0; r_buf := (0, row0) :: repeat (0, zero) (S N0 - 1); r_disk := [] |}
  = st zero row0 steps N0 N1 0.
Proof. unfold st. cbn [Nat.sub]. rewrite Nat.sub_0_r. reflexivity. Qed.
