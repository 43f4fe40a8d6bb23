(** Lemmas about adding and connecting ports. *)
From Coq Require Import Reals List Arith ZArith String Bool Lia Lra Sorting Permutation.
From Verif Require Import MPorts.
Import ListNotations.
Open Scope R_scope.

(** * Rounding *)
Lemma rnd_near : forall x, x - 1 / 2 <= IZR (rnd x) <= x + 1 / 2.
Proof.
  intros x. destruct (base_Int_part x) as [A B]. unfold rnd.
  destruct (Rlt_dec _ _); [lra|]. destruct (Rlt_dec _ _); [rewrite plus_IZR; lra|].
  destruct (Z.even _); [lra|rewrite plus_IZR; lra].
Qed.

Lemma clip_range : forall n z, (0 < n)%nat -> (clip n z < n)%nat.
Proof.
  intros n z P. unfold clip. destruct (Z.leb_spec (Z.of_nat n) z); [lia|].
  destruct (Z.ltb_spec z 0); lia.
Qed.

Lemma div_mul : forall a c, 0 < c -> a / c * c = a.
Proof. intros. field. lra. Qed.

Lemma resolve_range : forall g p c, (0 < gp g)%nat -> resolve g p = Some c -> (c < gp g)%nat.
Proof.
  intros g p c P E. destruct p as [i|v|d]; cbn in E.
  - destruct (_ && _)%bool; [|discriminate]. injection E as <-. apply clip_range, P.
  - destruct (Rle_dec _ _); [|discriminate]. destruct (Rle_dec _ _); [|discriminate].
    injection E as <-. apply clip_range, P.
  - destruct (Rle_dec _ _); [|discriminate]. destruct (Rle_dec _ _); [|discriminate].
    injection E as <-. apply clip_range, P.
Qed.

Lemma resolve_volume : forall g v c, (0 < gp g)%nat -> 0 < vcell g ->
  resolve g (ByVolume v) = Some c ->
  INR c * vcell g - 1 / 1000000000 <= v <= (INR c + 1) * vcell g.
Proof.
  intros g v c P VP E. unfold resolve in E. destruct (Rle_dec 0 v) as [V0|]; [|discriminate].
  destruct (Rle_dec v _) as [V1|]; [|discriminate]. injection E as <-.
  set (x := (v - (vcell g / 2 - 1 / 1000000000)) / vcell g).
  assert (X : x * vcell g = v - (vcell g / 2 - 1 / 1000000000)) by (apply div_mul, VP).
  destruct (rnd_near x) as [A B]. set (z := rnd x) in *. clearbody z x.
  apply (Rmult_le_compat_r (vcell g)) in A; [|lra].
  apply (Rmult_le_compat_r (vcell g)) in B; [|lra].
  unfold clip. destruct (Z.leb_spec (Z.of_nat (gp g)) z) as [Q|Q].
  - rewrite minus_INR by lia. cbn [INR].
    assert (W : INR (gp g) <= IZR z) by (rewrite INR_IZR_INZ; apply IZR_le, Q).
    assert (INR (gp g) * vcell g <= IZR z * vcell g) by (apply Rmult_le_compat_r; lra).
    split; nra.
  - destruct (Z.ltb_spec z 0) as [N|N].
    + assert (W : IZR z <= -1) by (apply (IZR_le z (-1)); lia). cbn [INR]. split; nra.
    + rewrite INR_IZR_INZ, Z2Nat.id by exact N. split; nra.
Qed.

Lemma resolve_distance : forall g d c, (0 < gp g)%nat -> 0 < len g ->
  resolve g (ByDistance d) = Some c ->
  INR c * (len g / INR (gp g)) <= d <= (INR c + 1 + 1 / 1000000000) * (len g / INR (gp g)).
Proof.
  intros g d c P LP E. unfold resolve in E. destruct (Rle_dec 0 d) as [D0|]; [|discriminate].
  destruct (Rle_dec d _) as [D1|]; [|discriminate]. injection E as <-.
  assert (NP : 0 < INR (gp g)) by (apply lt_0_INR, P).
  set (w := len g / INR (gp g)).
  assert (WP : 0 < w) by (apply Rdiv_lt_0_compat; assumption).
  set (y := d / len g * INR (gp g)).
  assert (Y : y * w = d) by (unfold y, w; field; lra).
  assert (YN : y <= INR (gp g)).
  { unfold y. assert (d / len g <= 1).
    { apply (Rmult_le_reg_r (len g)); [exact LP|]. rewrite div_mul by exact LP. lra. }
    nra. }
  assert (Y0 : 0 <= y).
  { unfold y. apply Rmult_le_pos; [|lra]. apply Rmult_le_pos; [exact D0|].
    left. apply Rinv_0_lt_compat, LP. }
  fold y. destruct (base_Int_part (y - 1 / 1000000000)) as [A B].
  set (z := Int_part (y - 1 / 1000000000)) in *.
  assert (ZN : (z < Z.of_nat (gp g))%Z).
  { apply lt_IZR. rewrite <- INR_IZR_INZ. lra. }
  rewrite <- Y. clearbody z w y. unfold clip.
  destruct (Z.ltb_spec z 0) as [N|N].
  - assert (W : IZR z <= -1) by (apply (IZR_le z (-1)); lia).
    destruct (Z.leb_spec (Z.of_nat (gp g)) 0); [lia|]. cbn [Z.ltb Z.compare Z.to_nat INR].
    split; [nra|]. apply Rmult_le_compat_r; lra.
  - destruct (Z.leb_spec (Z.of_nat (gp g)) z); [lia|]. destruct (Z.ltb_spec z 0); [lia|].
    rewrite INR_IZR_INZ, Z2Nat.id by exact N.
    split; (apply Rmult_le_compat_r; [lra|]); lra.
Qed.

(** * Insertion *)
Lemma search_le : forall l v, (searchsorted l v <= List.length l)%nat.
Proof.
  induction l as [|x l IH]; intros v; cbn [searchsorted List.length]; [lia|].
  destruct (x <? v)%nat; [|lia]. specialize (IH v). lia.
Qed.

Lemma insert_length : forall A i (x : A) l, (i <= List.length l)%nat ->
  List.length (insert_at i x l) = S (List.length l).
Proof.
  intros A i x l L. unfold insert_at. rewrite app_length, firstn_length. cbn [List.length].
  rewrite skipn_length. lia.
Qed.
Lemma insert_S : forall A i (x y : A) l, insert_at (S i) x (y :: l) = y :: insert_at i x l.
Proof. reflexivity. Qed.
Lemma insert_O : forall A (x : A) l, insert_at 0 x l = x :: l.
Proof. reflexivity. Qed.

Lemma insert_sorted : forall l v, StronglySorted le l ->
  StronglySorted le (insert_at (searchsorted l v) v l).
Proof.
  induction l as [|x l IH]; intros v S; cbn [searchsorted].
  - rewrite insert_O. constructor; constructor.
  - inversion S as [|? ? SS F]; subst. destruct (Nat.ltb_spec x v) as [L|L].
    + rewrite insert_S. constructor; [apply IH, SS|].
      apply Forall_forall. intros y I. rewrite Forall_forall in F.
      unfold insert_at in I. apply in_app_or in I.
      rewrite <- (firstn_skipn (searchsorted l v) l) in F.
      destruct I as [I|[<-|I]]; [apply F, in_or_app; auto|lia|apply F, in_or_app; auto].
    + rewrite insert_O. constructor; [exact S|]. constructor; [exact L|].
      rewrite Forall_forall in *. intros y I. specialize (F y I). lia.
Qed.
Lemma insert_in : forall A i (x y : A) l, In y (insert_at i x l) <-> y = x \/ In y l.
Proof.
  intros A i x y l. rewrite <- (firstn_skipn i l) at 2. unfold insert_at.
  rewrite !in_app_iff. cbn. split; intros H; intuition (subst; auto).
Qed.

Lemma add_port_wf : forall p key c, List.length (names p) = List.length (cells p) ->
  List.length (labels p) = List.length (cells p) -> StronglySorted le (cells p) ->
  let q := add_port p key c in
  List.length (names q) = List.length (cells q) /\
  List.length (labels q) = List.length (cells q) /\ StronglySorted le (cells q).
Proof.
  intros p key c N L S. cbn. rewrite !insert_length by (rewrite ?N; apply search_le).
  rewrite app_length. cbn. split; [lia|]. split; [lia|]. apply insert_sorted, S.
Qed.

Lemma index_in : forall key l, In key l <-> exists i, index_of key l = Some i.
Proof.
  intros key. induction l as [|x l IH]; cbn.
  - split; [contradiction|intros [i E]; discriminate].
  - destruct (string_dec x key) as [->|N].
    + split; [eauto|]. auto.
    + rewrite IH. split.
      * intros [->|[i E]]; [contradiction|]. rewrite E. eauto.
      * intros [i E]. right. destruct (index_of key l) as [j|]; [eauto|discriminate].
Qed.

(** Lookup in two parallel lists. *)
Lemma look_new : forall i key (c : nat) ns cs, (i <= List.length ns)%nat -> List.length ns = List.length cs ->
  ~ In key ns ->
  (match index_of key (insert_at i key ns) with
   | Some j => nth_error (insert_at i c cs) j | None => None end) = Some c.
Proof.
  induction i as [|i IH]; intros key c ns cs L E N.
  - rewrite !insert_O. cbn. destruct (string_dec key key); [reflexivity|contradiction].
  - destruct ns as [|x ns]; [cbn in L; lia|]. destruct cs as [|y cs]; [discriminate|].
    rewrite !insert_S. cbn [index_of]. destruct (string_dec x key) as [->|Q].
    + exfalso. apply N. left. reflexivity.
    + cbn in L, E. specialize (IH key c ns cs ltac:(lia) ltac:(lia)
        ltac:(intros I; apply N; right; exact I)).
      destruct (index_of key (insert_at i key ns)) as [j|]; [exact IH|discriminate].
Qed.
Lemma look_old : forall i key k (c : nat) ns cs, (i <= List.length ns)%nat -> List.length ns = List.length cs ->
  key <> k ->
  (match index_of k (insert_at i key ns) with
   | Some j => nth_error (insert_at i c cs) j | None => None end) =
  (match index_of k ns with Some j => nth_error cs j | None => None end).
Proof.
  induction i as [|i IH]; intros key k c ns cs L E N.
  - rewrite !insert_O. cbn [index_of]. destruct (string_dec key k); [contradiction|].
    destruct (index_of k ns); reflexivity.
  - destruct ns as [|x ns]; [cbn in L; lia|]. destruct cs as [|y cs]; [discriminate|].
    rewrite !insert_S. cbn [index_of]. destruct (string_dec x k) as [->|Q]; [reflexivity|].
    cbn in L, E. specialize (IH key k c ns cs ltac:(lia) ltac:(lia) N).
    destruct (index_of k (insert_at i key ns)) as [j|];
      destruct (index_of k ns) as [j'|]; cbn [nth_error]; exact IH.
Qed.

Definition wf (g : grid) (p : ports) : Prop :=
  List.length (names p) = List.length (cells p) /\ List.length (labels p) = List.length (cells p) /\
  StronglySorted le (cells p) /\ Forall (fun c => (c < gp g)%nat) (cells p).

Lemma add_wf : forall g p key c, wf g p -> (c < gp g)%nat -> wf g (add_port p key c).
Proof.
  intros g p key c (N & L & S & F) R. destruct (add_port_wf p key c N L S) as (A & B & C).
  repeat split; auto. cbn. rewrite Forall_forall in *. intros y I.
  apply insert_in in I. destruct I as [->|I]; auto.
Qed.
Lemma add_cell_new : forall g p key c, wf g p -> ~ In key (names p) ->
  cell_of (add_port p key c) key = Some c.
Proof.
  intros g p key c (N & _) Q. apply look_new; [rewrite N; apply search_le|exact N|exact Q].
Qed.
Lemma add_cell_old : forall g p key k c, wf g p -> key <> k ->
  cell_of (add_port p key c) k = cell_of p k.
Proof.
  intros g p key k c (N & _) Q. apply look_old; [rewrite N; apply search_le|exact N|exact Q].
Qed.

Lemma add_ports_wf : forall g new p q, (0 < gp g)%nat -> wf g p -> add_ports g p new = Some q ->
  wf g q.
Proof.
  intros g. induction new as [|[key pos] new IH]; intros p q P W E; cbn in E.
  - injection E as <-. exact W.
  - destruct (resolve g pos) as [c|] eqn:R; [|discriminate].
    apply (IH (add_port p key c) q P); [|exact E].
    apply add_wf; [exact W|apply (resolve_range g pos c P R)].
Qed.
Lemma add_ports_old : forall g new p q k, (0 < gp g)%nat -> wf g p -> add_ports g p new = Some q ->
  ~ In k (map fst new) -> cell_of q k = cell_of p k.
Proof.
  intros g. induction new as [|[key pos] new IH]; intros p q k P W E N; cbn in E.
  - injection E as <-. reflexivity.
  - destruct (resolve g pos) as [c|] eqn:R; [|discriminate]. cbn in N.
    rewrite (IH (add_port p key c) q k P) by
      (try apply add_wf; auto; apply (resolve_range g pos c P R)).
    apply (add_cell_old g); [exact W|auto].
Qed.
Lemma add_ports_new : forall g new p q k pos, (0 < gp g)%nat -> wf g p ->
  NoDup (names p ++ map fst new) -> add_ports g p new = Some q -> In (k, pos) new ->
  cell_of q k = resolve g pos /\ exists c, resolve g pos = Some c.
Proof.
  intros g. induction new as [|[key ps] new IH]; intros p q k pos P W D E I; [contradiction|].
  cbn in E. destruct (resolve g ps) as [c|] eqn:R; [|discriminate].
  assert (W' : wf g (add_port p key c)) by (apply add_wf; [exact W|apply (resolve_range g ps c P R)]).
  cbn [map fst] in D.
  assert (K : ~ In key (names p ++ map fst new)) by (apply NoDup_remove_2, D).
  destruct I as [I|I].
  - injection I as -> ->. rewrite (add_ports_old g new _ q k P W' E)
      by (intros Q; apply K, in_or_app; auto).
    rewrite R. split; [|eauto]. apply (add_cell_new g); [exact W|].
    intros Q. apply K, in_or_app. auto.
  - apply (IH (add_port p key c) q k pos P W'); [|exact E|exact I].
    cbn [names add_port]. apply NoDup_remove_1 in D.
    apply (Permutation_NoDup (l := key :: names p ++ map fst new)).
    + rewrite app_comm_cons. apply Permutation_app_tail. unfold insert_at.
      rewrite <- (firstn_skipn (searchsorted (cells p) c) (names p)) at 1.
      apply Permutation_middle.
    + constructor; assumption.
Qed.

Lemma add_ports_labels : forall g new p q, add_ports g p new = Some q ->
  labels q = labels p ++ repeat true (List.length new).
Proof.
  intros g. induction new as [|[key pos] new IH]; intros p q E; cbn in E.
  - injection E as <-. cbn. rewrite app_nil_r. reflexivity.
  - destruct (resolve g pos) as [c|]; [|discriminate]. rewrite (IH _ _ E). cbn.
    rewrite <- app_assoc. reflexivity.
Qed.
Lemma add_ports_names : forall g new p q k, add_ports g p new = Some q -> In k (names p) ->
  In k (names q).
Proof.
  intros g. induction new as [|[key pos] new IH]; intros p q k E I; cbn in E.
  - injection E as <-. exact I.
  - destruct (resolve g pos) as [c|]; [|discriminate]. apply (IH _ _ k E). cbn.
    apply insert_in. auto.
Qed.
Lemma index_lt : forall key l i, index_of key l = Some i -> (i < List.length l)%nat.
Proof.
  intros key. induction l as [|x l IH]; intros i E; cbn in E; [discriminate|].
  destruct (string_dec x key); [injection E as <-; cbn; lia|].
  destruct (index_of key l) as [j|]; [|discriminate]. injection E as <-. specialize (IH j eq_refl).
  cbn. lia.
Qed.
Lemma all_true : forall l i, Forall (fun b => b = true) l -> (i < List.length l)%nat ->
  nth_error l i = Some true.
Proof.
  induction l as [|b l IH]; intros i F L; [cbn in L; lia|].
  inversion F; subst. destruct i as [|i]; [reflexivity|]. cbn. apply IH; [assumption|cbn in L; lia].
Qed.

(** * Connections *)
Lemma mem_in : forall a l, mem a l = true <-> In a l.
Proof. intros a l. unfold mem. destruct (in_dec pkey_eq a l); split; auto; discriminate. Qed.
Lemma mem_notin : forall a l, mem a l = false <-> ~ In a l.
Proof. intros a l. unfold mem. destruct (in_dec pkey_eq a l); split; auto; try discriminate; contradiction. Qed.

Lemma connect_some : forall all s a b s', connect all s a b = Some s' ->
  In a all /\ In b all /\
  (is_port a = true -> ~ In a (connected s)) /\ (is_port b = true -> ~ In b (connected s)) /\
  link s' = upd (upd (link s) a b) b a /\
  connected s' = connected s ++ filter is_port [a; b] /\ num_conn s' = (num_conn s + 2)%nat.
Proof.
  intros all s a b s' E. unfold connect in E.
  destruct (is_port a && mem a (connected s))%bool eqn:A; [discriminate|].
  destruct (is_port b && mem b (connected s))%bool eqn:B; [discriminate|].
  destruct (mem a all) eqn:IA; [|discriminate]. destruct (mem b all) eqn:IB; [|discriminate].
  injection E as <-. cbn [link connected num_conn].
  split; [apply mem_in, IA|]. split; [apply mem_in, IB|].
  split; [intros Q; rewrite Q in A; apply mem_notin; exact A|].
  split; [intros Q; rewrite Q in B; apply mem_notin; exact B|]. auto.
Qed.

(** Invariant of successful calls. *)
Definition inv (s : net) : Prop :=
  (forall a, is_port a = true -> (In a (connected s) <-> link s a <> None)) /\
  (forall a b, link s a = Some b -> is_port b = true -> link s b = Some a).

Lemma inv0 : inv net0.
Proof. split; cbn; [|intros; discriminate]. intros a _. split; [contradiction|congruence]. Qed.

Lemma connect_inv : forall all s a b s', inv s -> connect all s a b = Some s' -> inv s'.
Proof.
  intros all s a b s' [I1 I2] E.
  destruct (connect_some _ _ _ _ _ E) as (_ & _ & NA & NB & LK & CN & _).
  split.
  - intros x P. rewrite CN, LK, in_app_iff, filter_In. unfold upd.
    destruct (pkey_eq x b) as [->|XB].
    + split; [discriminate|]. intros _. right. cbn. auto.
    + destruct (pkey_eq x a) as [->|XA].
      * split; [discriminate|]. intros _. right. cbn. auto.
      * rewrite <- (I1 x P). cbn. split; [|auto]. intros [H|[[H|[H|H]] _]]; congruence || contradiction || auto.
  - intros x y. rewrite LK. unfold upd.
    destruct (pkey_eq x b) as [->|XB].
    + intros H P. injection H as <-. destruct (pkey_eq a b) as [->|AB]; [reflexivity|].
      destruct (pkey_eq a a); [reflexivity|contradiction].
    + destruct (pkey_eq x a) as [->|XA].
      * intros H P. injection H as <-. destruct (pkey_eq b b); [reflexivity|contradiction].
      * intros H P. pose proof (I2 x y H P) as Q.
        assert (IN : In y (connected s)) by (apply (I1 y P); congruence).
        destruct (pkey_eq y b) as [->|YB]; [exfalso; exact (NB P IN)|].
        destruct (pkey_eq y a) as [->|YA]; [exfalso; exact (NA P IN)|]. exact Q.
Qed.
(** The link of a part port never changes. *)
Lemma connect_keeps : forall all s a b s' x, inv s -> connect all s a b = Some s' ->
  is_port x = true -> link s x <> None -> link s' x = link s x.
Proof.
  intros all s a b s' x [I1 _] E P L.
  destruct (connect_some _ _ _ _ _ E) as (_ & _ & NA & NB & LK & _).
  assert (IN : In x (connected s)) by (apply (I1 x P); exact L).
  rewrite LK. unfold upd. destruct (pkey_eq x b) as [->|]; [exfalso; exact (NB P IN)|].
  destruct (pkey_eq x a) as [->|]; [exfalso; exact (NA P IN)|]. reflexivity.
Qed.
Lemma connect_made : forall all s a b s', connect all s a b = Some s' ->
  link s' b = Some a /\ (link s' a = Some b).
Proof.
  intros all s a b s' E. destruct (connect_some _ _ _ _ _ E) as (_ & _ & _ & _ & LK & _).
  rewrite LK. unfold upd. destruct (pkey_eq b b); [|contradiction]. split; [reflexivity|].
  destruct (pkey_eq a b) as [->|]; [reflexivity|]. destruct (pkey_eq a a); [reflexivity|contradiction].
Qed.

Lemma all_inv : forall all l s s', inv s -> connect_all all s l = Some s' -> inv s'.
Proof.
  intros all. induction l as [|[a b] l IH]; intros s s' I E; cbn in E.
  - injection E as <-. exact I.
  - destruct (connect all s a b) as [t|] eqn:C; [|discriminate].
    apply (IH t s'); [apply (connect_inv _ _ _ _ _ I C)|exact E].
Qed.
Lemma all_keeps : forall all l s s' x, inv s -> connect_all all s l = Some s' ->
  is_port x = true -> link s x <> None -> link s' x = link s x.
Proof.
  intros all. induction l as [|[a b] l IH]; intros s s' x I E P L; cbn in E.
  - injection E as <-. reflexivity.
  - destruct (connect all s a b) as [t|] eqn:C; [|discriminate].
    pose proof (connect_keeps _ _ _ _ _ x I C P L) as K.
    rewrite <- K. apply (IH t s' x (connect_inv _ _ _ _ _ I C) E P). rewrite K. exact L.
Qed.
Lemma all_made : forall all l s s' a b, inv s -> connect_all all s l = Some s' -> In (a, b) l ->
  (is_port a = true -> link s' a = Some b) /\ (is_port b = true -> link s' b = Some a).
Proof.
  intros all. induction l as [|[c d] l IH]; intros s s' a b I E N; cbn in E; [contradiction|].
  destruct (connect all s c d) as [t|] eqn:C; [|discriminate].
  pose proof (connect_inv _ _ _ _ _ I C) as IT.
  destruct N as [N|N]; [|exact (IH t s' a b IT E N)].
  injection N as -> ->. destruct (connect_made _ _ _ _ _ C) as [MB MA].
  split; intros P.
  - rewrite (all_keeps all l t s' a IT E P); [exact MA|congruence].
  - rewrite (all_keeps all l t s' b IT E P); [exact MB|congruence].
Qed.

(** Ports with a link are exactly those named by the calls. *)
Lemma connect_linked : forall all s a b s' x, connect all s a b = Some s' ->
  (link s' x = None <-> link s x = None /\ x <> a /\ x <> b).
Proof.
  intros all s a b s' x E. destruct (connect_some _ _ _ _ _ E) as (_ & _ & _ & _ & LK & _).
  rewrite LK. unfold upd. destruct (pkey_eq x b) as [->|]; [split; [discriminate|intuition congruence]|].
  destruct (pkey_eq x a) as [->|]; [split; [discriminate|intuition congruence]|]. intuition.
Qed.
Lemma all_linked : forall all l s s' x, connect_all all s l = Some s' ->
  (link s' x = None <-> link s x = None /\ forall y, ~ In (x, y) l /\ ~ In (y, x) l).
Proof.
  intros all. induction l as [|[a b] l IH]; intros s s' x E; cbn in E.
  - injection E as <-. cbn. intuition.
  - destruct (connect all s a b) as [t|] eqn:C; [|discriminate].
    rewrite (IH t s' x E), (connect_linked _ _ _ _ _ x C). split.
    + intros [(N & A & B) H]. split; [exact N|]. intros y. destruct (H y) as [H1 H2].
      split; intros [Q|Q]; try contradiction; injection Q; intros; subst; contradiction.
    + intros [N H]. split; [split; [exact N|]|].
      * split; intros ->; [apply (proj1 (H b)); left; reflexivity|
                           apply (proj2 (H a)); left; reflexivity].
      * intros y. destruct (H y) as [H1 H2]. split; intros Q; [apply H1|apply H2]; right; exact Q.
Qed.

Definition ends (l : list (pkey * pkey)) : list pkey := flat_map (fun r => [fst r; snd r]) l.
Lemma all_count : forall all l s s', connect_all all s l = Some s' ->
  num_conn s' = (num_conn s + List.length (ends l))%nat /\
  connected s' = connected s ++ filter is_port (ends l) /\ incl (ends l) all.
Proof.
  intros all. induction l as [|[a b] l IH]; intros s s' E; cbn in E.
  - injection E as <-. cbn. rewrite app_nil_r, Nat.add_0_r. repeat split. intros x [].
  - destruct (connect all s a b) as [t|] eqn:C; [|discriminate].
    destruct (connect_some _ _ _ _ _ C) as (IA & IB & _ & _ & _ & CN & NC).
    destruct (IH t s' E) as (H1 & H2 & H3). rewrite H1, H2, NC, CN.
    change (ends ((a, b) :: l)) with ([a; b] ++ ends l).
    rewrite filter_app, app_length, app_assoc. cbn [List.length]. repeat split; [lia|].
    intros x I. apply in_app_or in I. destruct I as [[<-|[<-|[]]]|I]; auto.
Qed.
Lemma all_nodup : forall all l s s', NoDup (connected s) -> connect_all all s l = Some s' ->
  (forall a b, In (a, b) l -> a <> b) -> NoDup (connected s').
Proof.
  intros all. induction l as [|[a b] l IH]; intros s s' D E N; cbn in E.
  - injection E as <-. exact D.
  - destruct (connect all s a b) as [t|] eqn:C; [|discriminate].
    destruct (connect_some _ _ _ _ _ C) as (_ & _ & NA & NB & _ & CN & _).
    apply (IH t s'); [|exact E|intros x y I; apply N; right; exact I].
    assert (AB : a <> b) by (apply N; left; reflexivity).
    rewrite CN. cbn [filter]. destruct (is_port a) eqn:PA; destruct (is_port b) eqn:PB.
    + change (NoDup (connected s ++ [a] ++ [b])). rewrite app_assoc.
      apply NoDup_rev in D. apply (Permutation_NoDup (l := b :: a :: connected s)).
      * rewrite <- app_assoc. apply Permutation_trans with ([a; b] ++ connected s);
          [cbn; apply perm_swap|apply Permutation_app_comm].
      * apply NoDup_rev in D. rewrite rev_involutive in D.
        constructor; [|constructor; auto]. intros [Q|Q]; [congruence|exact (NB eq_refl Q)].
    + apply (Permutation_NoDup (l := a :: connected s)); [apply Permutation_cons_append|].
      constructor; auto.
    + apply (Permutation_NoDup (l := b :: connected s)); [apply Permutation_cons_append|].
      constructor; auto.
    + rewrite app_nil_r. exact D.
Qed.
Lemma filter_nodup : forall (f : pkey -> bool) l, NoDup (filter f l) ->
  NoDup (filter (fun x => negb (f x)) l) -> NoDup l.
Proof.
  intros f. induction l as [|x l IH]; intros A B; [constructor|]. cbn in A, B.
  destruct (f x) eqn:E; cbn in B.
  - inversion A; subst. constructor; [|auto]. intros I. apply H1, filter_In. auto.
  - inversion B; subst. constructor; [|auto]. intros I. apply H1, filter_In. rewrite E. auto.
Qed.

(** The dictionary of requests. *)
Lemma request_keys : forall d a b x, In x (map fst (request d a b)) <-> x = a \/ In x (map fst d).
Proof.
  induction d as [|[u v] d IH]; intros a b x; cbn; [intuition|].
  destruct (pkey_eq u a) as [->|N]; cbn; [intuition|]. rewrite IH. intuition.
Qed.
Lemma request_in : forall d a b, In (a, b) (request d a b).
Proof.
  induction d as [|[u v] d IH]; intros a b; cbn; [auto|].
  destruct (pkey_eq u a) as [->|N]; [left; reflexivity|right; apply IH].
Qed.
Lemma request_other : forall d a b x y, x <> a -> In (x, y) d -> In (x, y) (request d a b).
Proof.
  induction d as [|[u v] d IH]; intros a b x y N I; cbn; [contradiction|].
  destruct I as [I|I].
  - injection I as -> ->. destruct (pkey_eq x a); [contradiction|left; reflexivity].
  - destruct (pkey_eq u a); right; auto.
Qed.
Lemma request_back : forall d a b x y, In (x, y) (request d a b) -> (x = a /\ y = b) \/ In (x, y) d.
Proof.
  induction d as [|[u v] d IH]; intros a b x y I; cbn in I.
  - destruct I as [I|[]]. injection I as -> ->. auto.
  - destruct (pkey_eq u a) as [->|N]; cbn in I; destruct I as [I|I].
    + injection I as -> ->. auto.
    + right. right. exact I.
    + right. left. exact I.
    + destruct (IH _ _ _ _ I); auto. right. right. assumption.
Qed.
Lemma fold_keep : forall l d x y, ~ In x (map fst l) -> In (x, y) d ->
  In (x, y) (fold_left (fun d r => request d (fst r) (snd r)) l d).
Proof.
  induction l as [|[a b] l IH]; intros d x y N I; cbn; [exact I|].
  apply IH; [intros Q; apply N; right; exact Q|]. apply request_other; [|exact I].
  intros ->. apply N. left. reflexivity.
Qed.
Lemma requests_last : forall l1 a b l2, ~ In a (map fst l2) ->
  In (a, b) (requests (l1 ++ (a, b) :: l2)).
Proof.
  intros l1 a b l2 N. unfold requests. rewrite fold_left_app. cbn [fold_left fst snd].
  apply fold_keep; [exact N|]. apply request_in.
Qed.
Lemma fold_back : forall l d x y, In (x, y) (fold_left (fun d r => request d (fst r) (snd r)) l d) ->
  In (x, y) d \/ In (x, y) l.
Proof.
  induction l as [|[a b] l IH]; intros d x y I; cbn in I; [auto|].
  destruct (IH _ _ _ I) as [Q|Q]; [|right; right; exact Q].
  cbn in Q. destruct (request_back _ _ _ _ _ Q) as [[-> ->]|W]; [right; left; reflexivity|auto].
Qed.
