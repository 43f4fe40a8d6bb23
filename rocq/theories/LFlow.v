(** Proofs about flow processing (C08, C09). *)
From Coq Require Import Reals List Arith Bool Lra Lia.
From Verif Require Import MFlow SFlow.
Open Scope R_scope.

(** ** Sums *)
Lemma rsum_ext m f g : (forall i, (i < m)%nat -> f i = g i) -> rsum m f = rsum m g.
Proof. induction m; intros H; cbn; [reflexivity|]. rewrite IHm, H by auto with arith. reflexivity. Qed.
Lemma rsum_plus m f g : rsum m (fun i => f i + g i) = rsum m f + rsum m g.
Proof. induction m; cbn; [lra|]. rewrite IHm; lra. Qed.
Lemma rsum_minus m f g : rsum m (fun i => f i - g i) = rsum m f - rsum m g.
Proof. induction m; cbn; [lra|]. rewrite IHm; lra. Qed.
Lemma rsum_scal m c f : rsum m (fun i => c * f i) = c * rsum m f.
Proof. induction m; cbn; [lra|]. rewrite IHm; lra. Qed.
Lemma rsum_opp m f : rsum m (fun i => - f i) = - rsum m f.
Proof. induction m; cbn; [lra|]. rewrite IHm; lra. Qed.
Lemma rsum_zero m f : (forall i, (i < m)%nat -> f i = 0) -> rsum m f = 0.
Proof. induction m; intros H; cbn; [reflexivity|]. rewrite IHm, H by auto with arith. lra. Qed.
Lemma rsum_nonneg m f : (forall i, (i < m)%nat -> 0 <= f i) -> 0 <= rsum m f.
Proof.
  induction m; intros H; cbn; [lra|]. specialize (IHm ltac:(auto with arith)).
  specialize (H m ltac:(lia)). lra.
Qed.
Lemma rsum_le m f g : (forall i, (i < m)%nat -> f i <= g i) -> rsum m f <= rsum m g.
Proof.
  induction m; intros H; cbn; [lra|]. specialize (IHm ltac:(auto with arith)).
  specialize (H m ltac:(lia)). lra.
Qed.
Lemma rsum_swap m n f : rsum m (fun i => rsum n (fun j => f i j)) = rsum n (fun j => rsum m (fun i => f i j)).
Proof.
  induction m; cbn; [induction n; cbn; lra|]. rewrite IHm. rewrite <- rsum_plus. reflexivity.
Qed.
(** Summing an indicator picks the value. *)
Lemma rsum_pick n k f : (k < n)%nat -> rsum n (fun j => if (k =? j)%nat then f j else 0) = f k.
Proof.
  induction n; intros H; [lia|]. cbn.
  destruct (Nat.eqb_spec k n) as [->|E].
  - rewrite rsum_zero; [lra|]. intros i Hi. destruct (Nat.eqb_spec n i); [lia|reflexivity].
  - rewrite IHn by lia. lra.
Qed.
Lemma at_cell_sum n m own f : (forall i, (i < m)%nat -> (own i < n)%nat) ->
  rsum n (at_cell m own f) = rsum m f.
Proof.
  intros H. unfold at_cell. rewrite rsum_swap. apply rsum_ext. intros i Hi.
  rewrite (rsum_pick n (own i) (fun _ => f i)) by auto. reflexivity.
Qed.
Lemma at_cell_weight n m own f (w : nat -> R) : (forall i, (i < m)%nat -> (own i < n)%nat) ->
  rsum n (fun j => at_cell m own f j * w j) = rsum m (fun i => f i * w (own i)).
Proof.
  intros H. rewrite (rsum_ext _ _ (fun j => rsum m (fun i => if (own i =? j)%nat then f i * w j else 0))).
  - rewrite rsum_swap. apply rsum_ext. intros i Hi.
    rewrite (rsum_pick n (own i) (fun j => f i * w j)) by auto. reflexivity.
  - intros j _. unfold at_cell. rewrite Rmult_comm, <- rsum_scal. apply rsum_ext. intros i _.
    destruct (own i =? j)%nat; lra.
Qed.

(** ** Through flow *)
Definition two_ends (n : nat) (own : nat -> nat) := own 0%nat = 0%nat /\ own 1%nat = (n - 1)%nat.
(** The array ends that the code never writes are zero. *)
Definition ends0 (n : nat) (f : flows) := f_top f 0%nat = 0 /\ f_bot f (n - 1)%nat = 0.

Lemma flows0_ends n : ends0 n flows0.
Proof. split; reflexivity. Qed.
Lemma invar_ends n np io f : (1 <= n)%nat -> ends0 n f -> ends0 n (process_flow_invar n np io f).
Proof.
  intros Hn [H1 H2]. unfold process_flow_invar.
  destruct (Rle_dec 0 io); split; cbn; unfold fill;
    try (rewrite (proj2 (Nat.ltb_ge (n-1) (n-1))) by lia); rewrite ?andb_false_r; cbn; assumption.
Qed.
Lemma var_ends n np own io f : (1 <= n)%nat -> ends0 n f ->
  ends0 n (fst (process_flow_var n np own io f)).
Proof.
  intros Hn [H1 H2]. split; cbn [process_flow_var fst f_top f_bot]; unfold clip0.
  - cbn [Nat.leb andb]. rewrite H1. destruct (Rlt_dec 0 0); reflexivity.
  - rewrite Nat.ltb_irrefl. rewrite H2. destruct (Rlt_dec 0 0); reflexivity.
Qed.

Lemma invar_balance : forall n own io f,
  (1 <= n)%nat -> two_ends n own -> ends0 n f ->
  let g := process_flow_invar n 2 io f in
  let signed := fun i => match i with O => io | _ => - io end in
  (forall j, (j < n)%nat ->
     cell_in (f_top g) (f_bot g) 2 own (f_port g) j =
     cell_out n (f_top g) (f_bot g) 2 own (leaves signed) j /\
     0 <= f_top g j /\ 0 <= f_bot g j) /\
  f_port g 0%nat = Rmax 0 io /\ f_port g 1%nat = Rmax 0 (- io).
Proof.
  intros n own io f Hn [O0 O1] [E0 E1] g signed.
  assert (P : f_port g 0%nat = Rmax 0 io /\ f_port g 1%nat = Rmax 0 (- io)).
  { unfold g, process_flow_invar. destruct (Rle_dec 0 io); cbn;
      [rewrite Rmax_right, Rmax_left by lra|rewrite Rmax_left, Rmax_right by lra]; auto. }
  split; [|exact P].
  assert (Ht : forall j, (j < n)%nat -> f_top g j = if (j =? 0)%nat then 0 else Rmax 0 io).
  { intros j Hj. unfold g, process_flow_invar. destruct (Rle_dec 0 io); cbn; unfold fill.
    - destruct (Nat.eqb_spec j 0) as [->|Ej]; [cbn; exact E0|].
      replace (1 <=? j)%nat with true by (symmetry; apply Nat.leb_le; lia).
      replace (j <? n)%nat with true by (symmetry; apply Nat.ltb_lt; lia). cbn.
      rewrite Rmax_right; lra.
    - destruct (Nat.eqb_spec j 0) as [->|Ej]; [cbn; exact E0|].
      replace (1 <=? j)%nat with true by (symmetry; apply Nat.leb_le; lia).
      replace (j <? n)%nat with true by (symmetry; apply Nat.ltb_lt; lia). cbn.
      rewrite Rmax_left; lra. }
  assert (Hb : forall j, (j < n)%nat -> f_bot g j = if (j =? n - 1)%nat then 0 else Rmax 0 (- io)).
  { intros j Hj. unfold g, process_flow_invar. destruct (Rle_dec 0 io); cbn [f_bot]; unfold fill; cbn [Nat.leb andb].
    - destruct (Nat.eqb_spec j (n-1)) as [->|Ej].
      + rewrite Nat.ltb_irrefl. exact E1.
      + replace (j <? n-1)%nat with true by (symmetry; apply Nat.ltb_lt; lia).
        rewrite Rmax_left; lra.
    - destruct (Nat.eqb_spec j (n-1)) as [->|Ej].
      + rewrite Nat.ltb_irrefl. exact E1.
      + replace (j <? n-1)%nat with true by (symmetry; apply Nat.ltb_lt; lia).
        rewrite Rmax_right; lra. }
  intros j Hj. split.
  - unfold cell_in, cell_out, at_cell. cbn [rsum]. destruct P as [P0 P1].
    rewrite P0, P1, O0, O1, Ht, Hb by lia. unfold leaves, signed.
    rewrite Ropp_involutive.
    assert (Ht' : (if (S j <? n)%nat then f_top g (S j) else 0) =
                  if (j =? n - 1)%nat then 0 else Rmax 0 io).
    { destruct (Nat.ltb_spec (S j) n); destruct (Nat.eqb_spec j (n-1)); try lia; try reflexivity.
      rewrite Ht by lia. reflexivity. }
    rewrite Ht'.
    assert (Hb' : (if (j =? 0)%nat then 0 else f_bot g (j - 1)%nat) =
                  if (j =? 0)%nat then 0 else Rmax 0 (- io)).
    { destruct (Nat.eqb_spec j 0); [reflexivity|]. rewrite Hb by lia.
      destruct (Nat.eqb_spec (j-1) (n-1)); [lia|reflexivity]. }
    rewrite Hb'. rewrite (Nat.eqb_sym 0 j), (Nat.eqb_sym (n-1) j).
    destruct (j =? 0)%nat, (j =? n-1)%nat; lra.
  - rewrite Ht, Hb by lia. split; [destruct (j =? 0)%nat|destruct (j =? n-1)%nat];
      try lra; apply Rmax_l.
Qed.

(** ** Several ports *)
Definition sorted_ports (n m : nat) (own : nat -> nat) :=
  (forall i, (S i < m)%nat -> (own i <= own (S i))%nat) /\
  (forall i, (i < m)%nat -> (own i < n)%nat).

Lemma sorted_mono n m own : sorted_ports n m own ->
  forall i k, (i <= k)%nat -> (k < m)%nat -> (own i <= own k)%nat.
Proof.
  intros [H _] i k Hik. induction Hik; intros Hk; [lia|].
  specialize (H m0 Hk). specialize (IHHik ltac:(lia)). lia.
Qed.

Lemma cumsum_rsum io i : cumsum io i = rsum (S i) io.
Proof. induction i; cbn; [lra|]. cbn in IHi. rewrite IHi. reflexivity. Qed.

(** Flow leaving cell [j] downwards = sum of the port flows at or above [j]. *)
Definition above (m : nat) (own : nat -> nat) (io : nat -> R) (j : nat) : R :=
  rsum m (fun i => if (own i <=? j)%nat then io i else 0).

Lemma dm_loop_val n own io : forall m, sorted_ports n (S m) own ->
  forall j, dm_loop own io m (fun _ => 0) j =
    if (own m <=? j)%nat then 0 else above m own io j.
Proof.
  induction m; intros Hs j; [cbn; destruct (own 0%nat <=? j)%nat; reflexivity|].
  assert (Hs' : sorted_ports n (S m) own) by (destruct Hs; split; intros; auto with arith).
  cbn [dm_loop]. unfold fill_add. rewrite (IHm Hs' j), cumsum_rsum.
  assert (Hle : (own m <= own (S m))%nat) by (apply Hs; lia).
  destruct (Nat.leb_spec (own m) j) as [H1|H1].
  - destruct (Nat.ltb_spec j (own (S m))) as [H2|H2]; cbn [andb].
    + destruct (Nat.leb_spec (own (S m)) j); [lia|]. rewrite Rplus_0_l.
      unfold above. apply rsum_ext. intros i Hi.
      assert (own i <= own m)%nat by (apply (sorted_mono _ _ _ Hs); lia).
      destruct (Nat.leb_spec (own i) j); [reflexivity|lia].
    + destruct (Nat.leb_spec (own (S m)) j); [reflexivity|lia].
  - cbn [andb]. destruct (Nat.leb_spec (own (S m)) j); [lia|].
    unfold above. cbn [rsum]. destruct (Nat.leb_spec (own m) j); [lia|]. lra.
Qed.

Lemma dm_val n np own io : (1 <= np)%nat -> sorted_ports n np own -> rsum np io = 0 ->
  forall j, dm_loop own io (np - 1) (fun _ => 0) j = above np own io j.
Proof.
  intros Hp Hs H0 j. destruct np as [|m]; [lia|]. replace (S m - 1)%nat with m by lia.
  rewrite (dm_loop_val n own io m Hs j).
  destruct (Nat.leb_spec (own m) j) as [H|H].
  - symmetry. rewrite <- H0. unfold above. apply rsum_ext. intros i Hi.
    assert (own i <= own m)%nat by (apply (sorted_mono _ _ _ Hs); lia).
    destruct (Nat.leb_spec (own i) j); [reflexivity|lia].
  - unfold above. cbn [rsum]. destruct (Nat.leb_spec (own m) j); [lia|]. lra.
Qed.

Lemma above_step m own io j : above m own io (S j) = above m own io j + at_cell m own io (S j).
Proof.
  unfold above, at_cell. rewrite <- rsum_plus. apply rsum_ext. intros i _.
  destruct (Nat.leb_spec (own i) (S j)), (Nat.leb_spec (own i) j), (Nat.eqb_spec (own i) (S j));
    try lia; lra.
Qed.
Lemma above_0 m own io : above m own io 0 = at_cell m own io 0.
Proof.
  unfold above, at_cell. apply rsum_ext. intros i _.
  destruct (Nat.leb_spec (own i) 0), (Nat.eqb_spec (own i) 0); try lia; reflexivity.
Qed.
Lemma above_last n m own io : (1 <= n)%nat -> sorted_ports n m own -> rsum m io = 0 ->
  above m own io (n - 1) = 0.
Proof.
  intros Hn [_ Hs] H0. rewrite <- H0. unfold above. apply rsum_ext. intros i Hi.
  specialize (Hs i Hi). destruct (Nat.leb_spec (own i) (n-1)); [reflexivity|lia].
Qed.
Lemma at_cell_minus m own f g j : at_cell m own (fun i => f i - g i) j = at_cell m own f j - at_cell m own g j.
Proof.
  unfold at_cell. rewrite <- rsum_minus. apply rsum_ext. intros i _.
  destruct (own i =? j)%nat; lra.
Qed.

Lemma clip0_max a j : clip0 a j = Rmax 0 (a j).
Proof. unfold clip0. destruct (Rlt_dec (a j) 0); [rewrite Rmax_left|rewrite Rmax_right]; lra. Qed.

Lemma var_balance : forall n np own io f,
  (1 <= n)%nat -> (1 <= np)%nat -> sorted_ports n np own -> ends0 n f -> rsum np io = 0 ->
  let g := fst (process_flow_var n np own io f) in
  forall j, (j < n)%nat ->
    cell_in (f_top g) (f_bot g) np own (f_port g) j =
    cell_out n (f_top g) (f_bot g) np own (leaves io) j /\
    0 <= f_top g j /\ 0 <= f_bot g j /\
    (forall i, 0 <= f_port g i) /\
    ((S j < n)%nat -> f_top g (S j) - f_bot g j =
       rsum np (fun i => if (own i <=? j)%nat then io i else 0)).
Proof.
  intros n np own io f Hn Hp Hs [E0 E1] H0 g.
  assert (Ht : forall j, (j < n)%nat -> f_top g j = if (j =? 0)%nat then 0 else Rmax 0 (above np own io (j-1))).
  { intros j Hj. unfold g. cbn [process_flow_var fst f_top]. rewrite clip0_max.
    destruct (Nat.eqb_spec j 0) as [->|Ej]; [cbn; rewrite E0, Rmax_left; lra|].
    replace (1 <=? j)%nat with true by (symmetry; apply Nat.leb_le; lia).
    replace (j <? n)%nat with true by (symmetry; apply Nat.ltb_lt; lia). cbn [andb].
    rewrite (dm_val n) by assumption. reflexivity. }
  assert (Hb : forall j, (j < n)%nat -> f_bot g j = if (j =? n-1)%nat then 0 else Rmax 0 (- above np own io j)).
  { intros j Hj. unfold g. cbn [process_flow_var fst f_bot]. rewrite clip0_max.
    destruct (Nat.eqb_spec j (n-1)) as [->|Ej].
    - rewrite Nat.ltb_irrefl, E1, Rmax_left; lra.
    - replace (j <? n-1)%nat with true by (symmetry; apply Nat.ltb_lt; lia).
      rewrite (dm_val n) by assumption. reflexivity. }
  assert (Hport : forall i, f_port g i = Rmax 0 (io i)) by (intros i; apply clip0_max).
  assert (Hmm : forall x, Rmax 0 x - Rmax 0 (- x) = x).
  { intros x. destruct (Rle_dec 0 x); [rewrite Rmax_right, Rmax_left by lra|rewrite Rmax_left, Rmax_right by lra]; lra. }
  assert (Hat : forall j, at_cell np own (f_port g) j - at_cell np own (leaves io) j = at_cell np own io j).
  { intros j. rewrite <- at_cell_minus. unfold at_cell. apply rsum_ext. intros i _.
    destruct (own i =? j)%nat; [|reflexivity]. rewrite Hport. apply Hmm. }
  intros j Hj. split; [|split; [|split; [|split]]].
  - unfold cell_in, cell_out. specialize (Hat j).
    enough (f_top g j - (if (j =? 0)%nat then 0 else f_bot g (j - 1)%nat)
            + at_cell np own io j =
            (if (S j <? n)%nat then f_top g (S j) else 0) - f_bot g j) by lra.
    assert (L : f_top g j - (if (j =? 0)%nat then 0 else f_bot g (j - 1)%nat)
               + at_cell np own io j = above np own io j).
    { rewrite Ht by lia. destruct j as [|j]; [cbn; rewrite above_0; lra|].
      cbn [Nat.eqb]. rewrite Hb by lia. replace (S j - 1)%nat with j by lia.
      destruct (Nat.eqb_spec j (n-1)); [lia|]. rewrite above_step.
      specialize (Hmm (above np own io j)). lra. }
    rewrite L. rewrite Hb by lia.
    destruct (Nat.ltb_spec (S j) n) as [Hj'|Hj'].
    + rewrite Ht by lia. cbn [Nat.eqb]. replace (S j - 1)%nat with j by lia.
      destruct (Nat.eqb_spec j (n-1)); [lia|]. specialize (Hmm (above np own io j)). lra.
    + assert (j = n - 1)%nat by lia. subst j. rewrite Nat.eqb_refl.
      rewrite (above_last n) by assumption. lra.
  - rewrite Ht by lia. destruct (j =? 0)%nat; [lra|apply Rmax_l].
  - rewrite Hb by lia. destruct (j =? n-1)%nat; [lra|apply Rmax_l].
  - intros i. rewrite Hport. apply Rmax_l.
  - intros Hj'. rewrite Ht, Hb by lia. cbn [Nat.eqb]. replace (S j - 1)%nat with j by lia.
    destruct (Nat.eqb_spec j (n-1)); [lia|]. apply Hmm.
Qed.

(** ** Separate channels *)
Lemma multi_channel : forall n nch io top bot port c, (c < nch)%nat ->
  let '(t, b, p) := process_flow_multi n nch io top bot port in
  let one := process_flow_invar n 2 (io c)
     {| f_top := top c; f_bot := bot c; f_port := fun _ => 0 |} in
  (forall j, t c j = f_top one j) /\ (forall j, b c j = f_bot one j) /\
  p (2 * c)%nat = f_port one 0%nat /\ p (2 * c + 1)%nat = f_port one 1%nat.
Proof.
  intros n nch io top bot port c Hc. unfold process_flow_multi, process_flow_invar.
  rewrite (proj2 (Nat.ltb_lt c nch) Hc).
  rewrite (proj2 (Nat.ltb_lt (2 * c) (2 * nch))) by lia.
  rewrite (proj2 (Nat.ltb_lt (2 * c + 1) (2 * nch))) by lia.
  assert (E1 : Nat.even (2 * c) = true) by (rewrite Nat.even_mul; reflexivity).
  assert (E2 : Nat.even (2 * c + 1) = false) by (rewrite Nat.even_add, E1; reflexivity).
  rewrite E1, E2.
  assert (D1 : (2 * c / 2 = c)%nat) by (rewrite Nat.mul_comm; apply Nat.div_mul; lia).
  assert (D2 : ((2 * c + 1) / 2 = c)%nat).
  { rewrite (Nat.mul_comm 2 c), Nat.add_comm, Nat.div_add by lia. reflexivity. }
  rewrite D1, D2.
  destruct (Rle_dec 0 (io c)); cbn; unfold put; cbn; auto.
Qed.

(** ** Any history of earlier calls *)
Lemma invar_hist n hist : (1 <= n)%nat ->
  ends0 n (List.fold_left (fun f io => process_flow_invar n 2 io f) hist flows0).
Proof.
  intros Hn. assert (G : forall f, ends0 n f ->
    ends0 n (List.fold_left (fun f io => process_flow_invar n 2 io f) hist f)).
  { induction hist; cbn; intros f H; [exact H|]. apply IHhist, invar_ends; assumption. }
  apply G, flows0_ends.
Qed.
Lemma var_hist n np own hist : (1 <= n)%nat ->
  ends0 n (List.fold_left (fun f io => fst (process_flow_var n np own io f)) hist flows0).
Proof.
  intros Hn. assert (G : forall f, ends0 n f ->
    ends0 n (List.fold_left (fun f io => fst (process_flow_var n np own io f)) hist f)).
  { induction hist; cbn [List.fold_left]; intros f H; [exact H|]. apply IHhist, var_ends; assumption. }
  apply G, flows0_ends.
Qed.

Lemma C08_proof : forall n own hist io, (1 <= n)%nat ->
  own 0%nat = 0%nat -> own 1%nat = (n - 1)%nat ->
  let f := List.fold_left (fun f x => process_flow_invar n 2 x f) hist flows0 in
  let g := process_flow_invar n 2 io f in
  let signed := fun i => match i with O => io | _ => - io end in
  (forall j, (j < n)%nat ->
     cell_in (f_top g) (f_bot g) 2 own (f_port g) j =
     cell_out n (f_top g) (f_bot g) 2 own (leaves signed) j /\
     0 <= f_top g j /\ 0 <= f_bot g j) /\
  f_port g 0%nat = Rmax 0 io /\ f_port g 1%nat = Rmax 0 (- io).
Proof.
  intros n own hist io Hn H0 H1 f g signed.
  apply (invar_balance n own io f Hn (conj H0 H1) (invar_hist n hist Hn)).
Qed.

Lemma C08_multi_proof : forall n nch own io top bot port c, (1 <= n)%nat -> (c < nch)%nat ->
  own 0%nat = 0%nat -> own 1%nat = (n - 1)%nat ->
  top c 0%nat = 0 -> bot c (n - 1)%nat = 0 ->
  let '(t, b, p) := process_flow_multi n nch io top bot port in
  let inflow := fun i => p (2 * c + i)%nat in
  let signed := fun i => match i with O => io c | _ => - io c end in
  (forall j, (j < n)%nat ->
     cell_in (t c) (b c) 2 own inflow j = cell_out n (t c) (b c) 2 own (leaves signed) j /\
     0 <= t c j /\ 0 <= b c j) /\
  inflow 0%nat = Rmax 0 (io c) /\ inflow 1%nat = Rmax 0 (- io c).
Proof.
  intros n nch own io top bot port c Hn Hc H0 H1 Ht Hb.
  generalize (multi_channel n nch io top bot port c Hc).
  destruct (process_flow_multi n nch io top bot port) as [[t b] p]. cbv zeta.
  intros (Et & Eb & P0 & P1).
  pose (f := {| f_top := top c; f_bot := bot c; f_port := fun _ => 0 |}).
  destruct (invar_balance n own (io c) f Hn (conj H0 H1) (conj Ht Hb)) as [B [Q0 Q1]].
  split; [|split].
  - intros j Hj. specialize (B j Hj). unfold cell_in, cell_out, at_cell in *.
    cbn [rsum] in *. rewrite !Nat.add_0_r. rewrite !Et, !Eb, P0, P1.
    exact B.
  - rewrite Nat.add_0_r, P0. exact Q0.
  - rewrite P1. exact Q1.
Qed.

Lemma C09_proof : forall n np own hist io,
  (1 <= n)%nat -> (1 <= np)%nat ->
  (forall i, (S i < np)%nat -> (own i <= own (S i))%nat) ->
  (forall i, (i < np)%nat -> (own i < n)%nat) ->
  rsum np io = 0 ->
  let f := List.fold_left (fun f x => fst (process_flow_var n np own x f)) hist flows0 in
  let g := fst (process_flow_var n np own io f) in
  let stored := snd (process_flow_var n np own io f) in
  forall j, (j < n)%nat ->
    cell_in (f_top g) (f_bot g) np own (f_port g) j =
    cell_out n (f_top g) (f_bot g) np own (leaves io) j /\
    0 <= f_top g j /\ 0 <= f_bot g j /\
    (forall i, 0 <= f_port g i) /\
    ((S j < n)%nat ->
       f_top g (S j) - f_bot g j = rsum np (fun i => if (own i <=? j)%nat then io i else 0) /\
       stored j = rsum np (fun i => if (own i <=? j)%nat then io i else 0)).
Proof.
  intros n np own hist io Hn Hp Hs1 Hs2 H0 f g stored j Hj.
  destruct (var_balance n np own io f Hn Hp (conj Hs1 Hs2) (var_hist n np own hist Hn) H0 j Hj)
    as (A & B & C & D & E).
  repeat (split; [assumption|]). intros Hj'. split; [exact (E Hj')|].
  unfold stored. cbn [process_flow_var snd]. unfold put.
  destruct (Nat.eqb_spec j (n-1)); [lia|].
  apply (dm_val n np own io Hp (conj Hs1 Hs2) H0).
Qed.
