(** C155: pipe specifications scaled from a table. *)
From Coq Require Import Reals List Bool Arith String Lra Lia.
From Verif Require Import MPipeDb.
Import ListNotations.
Open Scope R_scope.

Lemma eqR_spec a b : reflect (a = b) (eqR a b).
Proof. unfold eqR. destruct (Req_EM_T a b); constructor; assumption. Qed.
Lemma all_some_spec {A} (l : list (option A)) r : all_some l = Some r <-> l = map Some r.
Proof.
  revert r. induction l as [|[x|] l IH]; intros r; cbn.
  - split; [intros E; injection E as <-; reflexivity|]. destruct r; [reflexivity|discriminate].
  - destruct (all_some l) as [s|] eqn:E.
    + split.
      * intros F. injection F as <-. cbn. f_equal. apply IH. reflexivity.
      * destruct r as [|y r]; [discriminate|]. cbn. intros F. injection F as <- F. apply IH in F. injection F as <-. reflexivity.
    + split; [discriminate|]. destruct r as [|y r]; [discriminate|]. cbn. intros F. injection F as _ F. apply IH in F. discriminate.
  - split; [discriminate|]. destruct r; discriminate.
Qed.
Definition wants (t : table) (qs : list request) (want : list R) : Prop :=
  Forall2 (fun q a => exists b, table_area t q = Some b /\ a = b * q_fac q) qs want.
Lemma want_spec t qs want :
  all_some (map (fun q => match table_area t q with Some a => Some (a * q_fac q) | None => None end) qs) = Some want <-> wants t qs want.
Proof.
  rewrite all_some_spec. unfold wants. split.
  - revert want. induction qs as [|q qs IH]; intros [|a w]; cbn; intros E; try discriminate; [constructor|].
    injection E as E1 E2. constructor; [|apply IH; exact E2]. destruct (table_area t q) as [b|]; [|discriminate].
    injection E1 as <-. eauto.
  - intros F. induction F as [|q a l w (b & B & ->) F IH]; [reflexivity|]. cbn. rewrite B, IH. reflexivity.
Qed.
Lemma interp_length itp t want r : interp_specs itp t want = Some r -> map s_Ai r = want.
Proof.
  unfold interp_specs. destruct (extended _); [|discriminate]. destruct (forallb _ _); [|discriminate].
  intros E. injection E as <-. rewrite map_map. cbn. apply map_id.
Qed.

(** One specification per request: with the inner area of the reference pipe times the factor, and diameters, wall
    thickness and wall area that fit the areas. *)
Theorem C155_areas itp t qs r : adjust itp t qs = Some r -> Forall2 (fun q s =>
    (exists b, table_area t q = Some b /\ s_Ai s = b * q_fac q) /\
    (0 <= s_Ai s -> PI / 4 * (s_di s * s_di s) = s_Ai s) /\ (0 <= s_Ao s -> PI / 4 * (s_do s * s_do s) = s_Ao s) /\
    s_do s = s_di s + 2 * s_s s /\ s_Ao s = s_Ai s + s_wall s) qs r.
Proof.
  unfold adjust. destruct (all_some _) as [want|] eqn:W; [|discriminate]. apply want_spec in W. intros E.
  pose proof (interp_length _ _ _ _ E) as A. unfold interp_specs in E.
  destruct (extended _) as [l|]; [|discriminate]. destruct (forallb _ _); [|discriminate]. injection E as <-.
  clear A. revert W. generalize (kept want l). intros k W. unfold wants in W.
  induction W as [|q a qs w (b & B & ->) W IH]; [constructor|]. cbn [map]. constructor; [|exact IH].
  pose proof PI_RGT_0 as P. unfold finish. cbn [s_Ai s_Ao s_di s_do s_s s_wall]. split; [eauto|].
  assert (G : forall x, 0 <= x -> PI / 4 * (sqrt (x * 4 / PI) * sqrt (x * 4 / PI)) = x).
  { intros x X. rewrite sqrt_sqrt; [field; lra|]. apply Rmult_le_pos; [lra|]. left. apply Rinv_0_lt_compat, P. }
  split; [apply G|]. split; [apply G|]. split; field.
Qed.
Print Assumptions C155_areas.

(** Tables that differ only in the outer area of rows with inner area [a]. *)
Definition but_outer (a : R) (l m : rows) : Prop :=
  Forall2 (fun x y => fst x = fst y /\ fst (snd x) = fst (snd y) /\ (fst (snd x) <> a -> x = y)) l m.

Lemma kept_but want a : In a want -> a <> 1e-5 -> a <> 0.1 -> forall l m,
  Forall2 (fun x y : R * R => fst x = fst y /\ (fst x <> a -> x = y)) l m -> kept want l = kept want m.
Proof.
  intros I N1 N2 l m F. unfold kept. induction F as [|x y l m [E1 E2] F IH]; [reflexivity|]. cbn [filter]. rewrite <- E1, IH.
  destruct (Req_dec (fst x) a) as [E|E].
  - destruct (eqR_spec (fst x) 1e-5) as [Z|_]; [congruence|]. destruct (eqR_spec (fst x) 0.1) as [Z|_]; [congruence|].
    assert (X : existsb (same (fst x)) want = true).
    { apply existsb_exists. exists a. split; [exact I|]. unfold same. destruct (eqR_spec (fst x) a); congruence. }
    rewrite X. reflexivity.
  - rewrite (E2 E). reflexivity.
Qed.
Lemma extra_but new o i o' i' : o = o' -> i = i' -> extra new o i = extra new o' i'.
Proof. intros -> ->. reflexivity. Qed.

Lemma F2_rev {A B} (P : A -> B -> Prop) l m : Forall2 P l m -> Forall2 P (rev l) (rev m).
Proof.
  intros F. induction F as [|x y l m H F IH]; [constructor|]. cbn. apply Forall2_app; [exact IH|]. constructor; [exact H|constructor].
Qed.

(** A pipe taken from the table unchanged (factor 1) does not get the outer area of the table: the result does not
    depend on it, whatever interpolation is used (for a row that is not one of the outermost two on either side). *)
Theorem C155_unchanged_refuted itp t t' ty dn a ao ao' r r' :
  let q := mkReq [("pipe_type"%string, ty); ("DN"%string, dn)] 1 in
  let P := "EN10255_medium"%string in
  ty = P -> find (fun x => String.eqb (fst x) dn) (t P) = Some (dn, (a, ao)) -> find (fun x => String.eqb (fst x) dn) (t' P) = Some (dn, (a, ao')) ->
  but_outer a (t P) (t' P) -> a <> 1e-5 -> a <> 0.1 ->
  (forall x, In x (firstn 2 (t P) ++ firstn 2 (rev (t P))) -> fst (snd x) <> a) ->
  adjust itp t [q] = Some [r] -> adjust itp t' [q] = Some [r'] -> r = r' /\ (ao <> ao' -> s_Ao r <> ao \/ s_Ao r' <> ao').
Proof.
  intros q P TY F F' B N1 N2 OUT. unfold adjust. cbn [map]. unfold table_area, q. cbn [q_keys map snd q_fac]. subst ty.
  rewrite F, F'. cbn [fst snd]. cbn [all_some]. unfold interp_specs. fold P.
  assert (PT : Forall2 (fun x y : R * R => fst x = fst y /\ (fst x <> a -> x = y)) (map snd (t P)) (map snd (t' P))).
  { revert B. generalize (t P) (t' P). intros l m B. induction B as [|x y l m (E0 & E1 & E2) B IH]; [constructor|]. cbn [map].
    constructor; [|exact IH]. split; [exact E1|]. intros N. rewrite (E2 N). reflexivity. }
  assert (EX : match extended (map snd (t P)), extended (map snd (t' P)) with
               | Some l, Some m => Forall2 (fun x y : R * R => fst x = fst y /\ (fst x <> a -> x = y)) l m
               | None, None => True | _, _ => False end).
  { assert (O1 : forall x, In x (firstn 2 (map snd (t P))) -> fst x <> a).
    { intros x I. rewrite firstn_map in I. apply in_map_iff in I. destruct I as (y & <- & I). apply OUT, in_or_app. left. exact I. }
    assert (O2 : forall x, In x (firstn 2 (rev (map snd (t P)))) -> fst x <> a).
    { intros x I. rewrite <- map_rev, firstn_map in I. apply in_map_iff in I. destruct I as (y & <- & I). apply OUT, in_or_app. right. exact I. }
    pose proof (F2_rev _ _ _ PT) as PR. unfold extended.
    revert PT O1 O2 PR. generalize (map snd (t P)) (map snd (t' P)). intros l m PT O1 O2 PR.
    destruct PT as [|x1 y1 l m H1 PT]; [cbn; exact I|]. destruct PT as [|x2 y2 l m H2 PT]; [cbn; exact I|].
    remember (rev (x1 :: x2 :: l)) as rl eqn:RL. remember (rev (y1 :: y2 :: m)) as rm eqn:RM.
    destruct PR as [|u1 v1 rl rm G1 PR]; [exact I|]. destruct PR as [|u2 v2 rl rm G2 PR]; [exact I|].
    assert (x1 = y1) by (apply H1, O1; left; reflexivity). assert (x2 = y2) by (apply H2, O1; right; left; reflexivity).
    assert (u1 = v1) by (apply G1, O2; left; reflexivity). assert (u2 = v2) by (apply G2, O2; right; left; reflexivity).
    subst y1 y2 v1 v2. constructor; [split; reflexivity|]. apply Forall2_app; [|constructor; [split; reflexivity|constructor]].
    constructor; [split; reflexivity|]. constructor; [split; reflexivity|]. exact PT. }
  destruct (extended (map snd (t P))) as [l|]; [|discriminate]. destruct (extended (map snd (t' P))) as [m|]; [|discriminate].
  rewrite Rmult_1_r. rewrite (kept_but [a] a (or_introl eq_refl) N1 N2 l m EX).
  destruct (forallb _ _); [|discriminate]. intros E E'. injection E as E. injection E' as E'.
  assert (RR : r = r') by (rewrite <- E, <- E'; reflexivity). split; [exact RR|].
  intros NE. rewrite RR. destruct (Req_dec (s_Ao r') ao) as [X|X]; [right; congruence | left; exact X].
Qed.
Print Assumptions C155_unchanged_refuted.

(** The wall of every pipe is that of type EN10255_medium: the other values of the requested type do not matter. *)
Theorem C155_type_refuted itp t t' q : t "EN10255_medium"%string = t' "EN10255_medium"%string ->
  table_area t q = table_area t' q -> adjust itp t [q] = adjust itp t' [q].
Proof. intros E A. unfold adjust. cbn [map]. rewrite A. unfold interp_specs. rewrite E. reflexivity. Qed.
Print Assumptions C155_type_refuted.

(** The meaning of the reference dict depends on the order of its entries: with the diameter first, no pipe is found
    unless a diameter is also a pipe type. *)
Theorem C155_order_refuted itp t ty dn fac qs : t dn = [] ->
  adjust itp t (mkReq [("DN"%string, dn); ("pipe_type"%string, ty)] fac :: qs) = None.
Proof. intros E. unfold adjust. cbn [map]. unfold table_area at 1. cbn [q_keys map snd]. rewrite E. reflexivity. Qed.
Print Assumptions C155_order_refuted.

(** Areas outside of the additional points are refused. *)
Theorem C155_range itp t q b : table_area t q = Some b ->
  Forall (fun x => 1e-5 <= fst (snd x) <= 0.1) (t "EN10255_medium"%string) ->
  b * q_fac q < 1e-5 \/ 0.1 < b * q_fac q -> adjust itp t [q] = None.
Proof.
  intros B F O. unfold adjust. cbn [map]. rewrite B. cbn [all_some]. unfold interp_specs.
  set (P := "EN10255_medium"%string) in *. set (w := b * q_fac q) in *.
  destruct (extended (map snd (t P))) as [l|] eqn:E; [|reflexivity].
  assert (L : forall p, In p l -> 1e-5 <= fst p <= 0.1).
  { assert (M : forall p, In p (map snd (t P)) -> 1e-5 <= fst p <= 0.1).
    { intros p I. apply in_map_iff in I. destruct I as (x & <- & I). rewrite Forall_forall in F. apply F. exact I. }
    revert E M. generalize (map snd (t P)). intros k E M. unfold extended in E. destruct k as [|x1 [|x2 k]]; try discriminate.
    destruct (rev _) as [|y [|z s]]; try discriminate. injection E as <-.
    assert (C : 1e-5 <= 1e-5 <= 0.1 /\ 1e-5 <= 0.1 <= 0.1) by lra.
    intros p [<-|I]; [cbn [extra fst]; apply C|].
    change (In p ((x1 :: x2 :: k) ++ [extra 0.1 y z])) in I.
    apply in_app_or in I. destruct I as [I|[<-|[]]]; [apply M; exact I | cbn [extra fst]; apply C]. }
  cbn [forallb]. assert (I : inside (kept [w] l) w = false); [|rewrite I; reflexivity].
  unfold inside. apply andb_false_iff. destruct O as [O|O]; [left | right].
  - destruct (existsb _ _) eqn:X; [|reflexivity]. apply existsb_exists in X. destruct X as (p & I & C).
    unfold kept in I. apply filter_In in I. destruct I as [I _]. specialize (L p I). destruct (Rle_dec (fst p) w); [lra|discriminate].
  - destruct (existsb _ _) eqn:X; [|reflexivity]. apply existsb_exists in X. destruct X as (p & I & C).
    unfold kept in I. apply filter_In in I. destruct I as [I _]. specialize (L p I). destruct (Rle_dec w (fst p)); [lra|discriminate].
Qed.
Print Assumptions C155_range.

(** All others are accepted, for tables of at least two rows. *)
Lemma kept_ends want l p : In p l -> fst p = 1e-5 \/ fst p = 0.1 -> In p (kept want l).
Proof.
  intros I H. unfold kept. apply filter_In. split; [exact I|].
  destruct H as [-> | ->]; [destruct (eqR_spec 1e-5 1e-5) as [|X]; [reflexivity|now destruct X]|].
  destruct (eqR_spec 0.1 0.1) as [|X]; [apply orb_true_iff; left; apply orb_true_r|now destruct X].
Qed.
Theorem C155_accepted itp t qs want : (2 <= List.length (t "EN10255_medium"%string))%nat -> wants t qs want ->
  (forall a, In a want -> 1e-5 <= a <= 0.1) -> exists r, adjust itp t qs = Some r /\ map s_Ai r = want.
Proof.
  intros L W B. unfold adjust. rewrite (proj2 (want_spec t qs want) W).
  destruct (interp_specs itp t want) as [r|] eqn:E; [exists r; split; [reflexivity | apply (interp_length _ _ _ _ E)]|].
  exfalso. unfold interp_specs in E. set (P := "EN10255_medium"%string) in *.
  assert (X : exists l, extended (map snd (t P)) = Some l /\ (exists p, In p l /\ fst p = 1e-5) /\ exists p, In p l /\ fst p = 0.1).
  { revert L. generalize (t P). intros k L. unfold extended. destruct k as [|x1 [|x2 k]]; cbn [List.length] in L; try lia.
    cbn [map]. destruct (rev _) as [|y [|z s]] eqn:RV; try (apply (f_equal (@List.length _)) in RV; rewrite rev_length in RV; cbn in RV; discriminate).
    eexists. split; [reflexivity|]. split.
    - eexists. split; [left; reflexivity|reflexivity].
    - eexists. split; [right; apply in_or_app; right; left; reflexivity|reflexivity]. }
  destruct X as (l & X & (p & Ip & Hp) & (q & Iq & Hq)). rewrite X in E.
  assert (I : forallb (inside (kept want l)) want = true); [|rewrite I in E; discriminate].
  apply forallb_forall. intros a Ia. specialize (B a Ia). unfold inside. apply andb_true_iff. split; apply existsb_exists.
  - exists p. split; [apply kept_ends; auto|]. rewrite Hp. destruct (Rle_dec _ _); [reflexivity|lra].
  - exists q. split; [apply kept_ends; auto|]. rewrite Hq. destruct (Rle_dec _ _); [reflexivity|lra].
Qed.
Print Assumptions C155_accepted.

(** Walls in proportion: if the outer areas of the table are in proportion to the inner ones and the interpolation
    keeps such proportions, every pipe has this proportion, inside of the table and outside of it. *)
Theorem C155_proportion itp t qs r c : 0 < c ->
  (forall l a, (forall p, In p l -> snd p = c * fst p) -> itp l a = c * a) ->
  Forall (fun x => 0 < fst (snd x) /\ snd (snd x) = c * fst (snd x)) (t "EN10255_medium"%string) ->
  adjust itp t qs = Some r -> forall s, In s r -> s_Ao s = c * s_Ai s /\ s_wall s = (c - 1) * s_Ai s.
Proof.
  intros C I F A s Is. unfold adjust in A.
  destruct (all_some _) as [want|]; [|discriminate]. unfold interp_specs in A.
  set (P := "EN10255_medium"%string) in *.
  destruct (extended (map snd (t P))) as [l|] eqn:E; [|discriminate].
  assert (L : forall p, In p l -> snd p = c * fst p).
  { assert (M : forall p, In p (map snd (t P)) -> 0 < fst p /\ snd p = c * fst p).
    { intros p J. apply in_map_iff in J as (x & <- & J). rewrite Forall_forall in F. apply F. exact J. }
    assert (X : forall new o i, 0 < fst o -> 0 < fst i -> snd o = c * fst o -> snd i = c * fst i ->
      snd (extra new o i) = c * fst (extra new o i)).
    { intros new [o1 o2] [i1 i2]. cbn. intros O1 I1 -> ->. field. repeat split; lra. }
    revert E M. generalize (map snd (t P)). intros k E M. unfold extended in E.
    destruct k as [|x1 [|x2 k]]; try discriminate.
    destruct (rev (x1 :: x2 :: k)) as [|y [|z u]] eqn:RV; try discriminate. injection E as <-.
    assert (Y : In y (x1 :: x2 :: k)) by (apply in_rev; rewrite RV; left; reflexivity).
    assert (Z : In z (x1 :: x2 :: k)) by (apply in_rev; rewrite RV; right; left; reflexivity).
    intros p [<-|J].
    - apply X; apply M; cbn; auto.
    - change (In p ((x1 :: x2 :: k) ++ [extra 0.1 y z])) in J.
      apply in_app_or in J. destruct J as [J|[<-|[]]]; [apply M; exact J|]. apply X; apply M; assumption. }
  destruct (forallb _ _); [|discriminate]. injection A as <-.
  apply in_map_iff in Is as (a & <- & _). cbn [finish s_Ao s_Ai s_wall].
  assert (K : forall p, In p (kept want l) -> snd p = c * fst p).
  { intros p J. apply L. unfold kept in J. apply filter_In in J. apply J. }
  destruct (find _ _) as [p|] eqn:FD.
  - apply find_some in FD as [J E2]. unfold same in E2. destruct (eqR_spec (fst p) a) as [<-|]; [|discriminate].
    rewrite (K p J). split; ring.
  - rewrite (I _ a K). split; ring.
Qed.
Print Assumptions C155_proportion.

Definition ex_t (mid : R) : table := fun ty =>
  if String.eqb ty "EN10255_medium" then
    [("DN10", (0.001, 0.002)); ("DN15", (0.002, 0.004)); ("DN20", (0.003, mid)); ("DN25", (0.004, 0.008)); ("DN32", (0.005, 0.01))]%string
  else [].
Definition ex_q := mkReq [("pipe_type", "EN10255_medium"); ("DN", "DN20")]%string 1.

Example C155_ex : forall itp mid, (exists r, adjust itp (ex_t mid) [ex_q] = Some r /\ map s_Ai r = [0.003]) /\
  but_outer 0.003 (ex_t mid "EN10255_medium"%string) (ex_t 0.006 "EN10255_medium"%string) /\
  (forall x, In x (firstn 2 (ex_t mid "EN10255_medium"%string) ++ firstn 2 (rev (ex_t mid "EN10255_medium"%string))) -> fst (snd x) <> 0.003).
Proof.
  intros itp mid. split; [apply C155_accepted|split].
  - cbn. lia.
  - repeat constructor. exists 0.003. split; [reflexivity|]. cbn [q_fac ex_q]. lra.
  - intros a [<-|[]]. lra.
  - repeat constructor. cbn [fst snd]. intros N. exfalso. apply N. reflexivity.
  - intros x H. cbn in H. repeat (destruct H as [<-|H]; [cbn; lra|]). destruct H.
Qed.
