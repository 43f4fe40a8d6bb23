(** * C172: results read back from the result file are those of the run *)
From Coq Require Import String Ascii List Arith Bool Lia.
From Verif Require Import MPack MReturn PPack.
Import ListNotations.
Open Scope string_scope.

(** ** Dictionaries *)
Lemma find_put : forall (V : Type) n m (v : V) d, find m (put n v d) = if n =? m then Some v else find m d.
Proof.
  intros V n m v. induction d as [|[a w] d IH]; cbn [put find]; [reflexivity|].
  destruct (String.eqb_spec a n) as [->|N]; cbn [find]; [destruct (n =? m); reflexivity|].
  rewrite IH. destruct (String.eqb_spec n m) as [->|M]; [|reflexivity].
  destruct (String.eqb_spec a m); [contradiction|reflexivity].
Qed.

Lemma put_all_out : forall (V : Type) m (l d : list (string * V)),
  (forall e, In e l -> fst e <> m) -> find m (put_all l d) = find m d.
Proof.
  intros V m. unfold put_all. induction l as [|e l IH]; intros d H; [reflexivity|]. cbn [fold_left].
  rewrite IH by (intros; apply H; now right). rewrite find_put.
  destruct (String.eqb_spec (fst e) m) as [E|]; [|reflexivity]. destruct (H e (or_introl eq_refl) E).
Qed.
Lemma put_all_in : forall (V : Type) m (v : V) (l d : list (string * V)),
  (exists e, In e l /\ fst e = m) -> (forall e, In e l -> fst e = m -> snd e = v) -> find m (put_all l d) = Some v.
Proof.
  intros V m v. unfold put_all. induction l as [|e l IH]; intros d (x & X & E) H; [destruct X|]. cbn [fold_left].
  destruct (in_dec string_dec m (map fst l)) as [I|I].
  - apply IH; [|intros; apply H; [now right|assumption]]. apply in_map_iff in I. destruct I as (y & Y & I). now exists y.
  - change (fold_left (fun d e => put (fst e) (snd e) d) l (put (fst e) (snd e) d)) with (put_all l (put (fst e) (snd e) d)).
    destruct X as [->|X]; [|exfalso; apply I; apply in_map_iff; now exists x].
    rewrite put_all_out by (intros y Y F; apply I; apply in_map_iff; now exists y).
    rewrite find_put, E, String.eqb_refl. f_equal. apply H; [now left|exact E].
Qed.

Lemma keys_put : forall (V : Type) n (v : V) d k, In k (map fst (put n v d)) <-> k = n \/ In k (map fst d).
Proof.
  intros V n v d k. induction d as [|[m w] d IH]; cbn [put map In fst]; [split; intros [->|[]]; auto|].
  destruct (String.eqb_spec m n) as [->|N]; cbn [map In fst]; [split; [tauto|intros [->|H]; auto]|].
  rewrite IH. tauto.
Qed.
Lemma nodup_put : forall (V : Type) n (v : V) d, NoDup (map fst d) -> NoDup (map fst (put n v d)).
Proof.
  intros V n v d. induction d as [|[m w] d IH]; cbn [put map fst]; intros H; [constructor; [intros []|constructor]|].
  inversion H as [|? ? N D]; subst. destruct (String.eqb_spec m n) as [->|M]; cbn [map fst]; [exact H|].
  constructor; [|apply IH, D]. intro I. apply keys_put in I. destruct I as [->|I]; auto.
Qed.
Lemma keys_put_all : forall (V : Type) (l d : list (string * V)) k,
  In k (map fst (put_all l d)) <-> In k (map fst l) \/ In k (map fst d).
Proof.
  intros V l. unfold put_all. induction l as [|e l IH]; intros d k; cbn [fold_left map In]; [tauto|].
  rewrite IH, keys_put. split; [intros [H|[->|H]]|intros [[<-|H]|H]]; auto.
Qed.
Lemma nodup_put_all : forall (V : Type) (l d : list (string * V)), NoDup (map fst d) -> NoDup (map fst (put_all l d)).
Proof.
  intros V l. unfold put_all. induction l as [|e l IH]; intros d H; [exact H|]. cbn [fold_left]. apply IH, nodup_put, H.
Qed.
Lemma find_none : forall (V : Type) n (d : list (string * V)), find n d = None <-> ~ In n (map fst d).
Proof.
  intros V n d. induction d as [|[m w] d IH]; cbn [find map In fst]; [tauto|].
  destruct (String.eqb_spec m n) as [->|N]; [split; [discriminate|tauto]|]. rewrite IH. tauto.
Qed.

(** ** Texts *)
(** A name without a slash. *)
Definition plain (s : string) : Prop := split s = [s].

Lemma split_cons : forall s, exists h t, split s = h :: t.
Proof.
  induction s as [|c s (h & t & E)]; cbn; [now exists "", []|]. rewrite E.
  destruct (c =? slash)%char; eexists; eexists; reflexivity.
Qed.
Lemma plain_inv : forall c s, plain (String c s) -> c <> slash /\ plain s.
Proof.
  unfold plain. intros c s H. cbn in H. destruct (Ascii.eqb_spec c slash) as [->|N]; [discriminate|].
  destruct (split_cons s) as (h & t & E). rewrite E in *. injection H as -> ->. auto.
Qed.
Lemma plain_cons : forall c s, c <> slash -> plain s -> plain (String c s).
Proof.
  unfold plain. intros c s N H. cbn. destruct (Ascii.eqb_spec c slash); [contradiction|]. now rewrite H.
Qed.
Lemma plain_app : forall a b, plain a -> plain b -> plain (a ++ b).
Proof.
  induction a as [|c a IH]; intros b A B; [exact B|]. apply plain_inv in A. cbn. apply plain_cons; [tauto|]. apply IH; tauto.
Qed.
Lemma split_app : forall a b, plain a -> split (a ++ "/" ++ b) = a :: split b.
Proof.
  induction a as [|c a IH]; intros b A; [reflexivity|]. apply plain_inv in A. destruct A as [N A].
  specialize (IH b A). cbn [append split] in *. destruct (Ascii.eqb_spec c slash); [contradiction|].
  cbn [append] in IH. now rewrite IH.
Qed.
Lemma split_key : forall n t, plain n -> plain t -> split (key n t) = [""; n; t].
Proof.
  intros n t N T. unfold key. change (split ("/" ++ n ++ "/" ++ t)) with ("" :: split (n ++ "/" ++ t)).
  rewrite split_app by exact N. now rewrite T.
Qed.
Lemma key_inj : forall n t n' t', plain n -> plain t -> plain n' -> plain t' -> key n t = key n' t' -> n = n' /\ t = t'.
Proof.
  intros n t n' t' N T N' T' E. assert (H : split (key n t) = split (key n' t')) by now rewrite E.
  rewrite !split_key in H by assumption. now injection H.
Qed.

(** A text is found in two texts joined by a sign it does not contain iff it is found in one of them. *)
Fixpoint has_sign (c : ascii) (s : string) : bool :=
  match s with EmptyString => false | String d r => (d =? c)%char || has_sign c r end.
Lemma prefix_sep : forall c m a b, has_sign c m = false -> prefix m (a ++ String c b) = true -> prefix m a = true.
Proof.
  intros c. induction m as [|d m IH]; intros a b H P; [destruct a; reflexivity|].
  cbn in H. apply orb_false_iff in H. destruct H as [H1 H2].
  destruct a as [|e a]; cbn in P |- *.
  - destruct (ascii_dec d c) as [->|]; [|discriminate]. now rewrite Ascii.eqb_refl in H1.
  - destruct (ascii_dec d e); [|discriminate]. eapply IH; eassumption.
Qed.
Lemma contains_sep : forall c m a b, has_sign c m = false -> m <> "" ->
  contains m (a ++ String c b) = contains m a || contains m b.
Proof.
  intros c m a b H M.
  assert (G : contains m (a ++ String c b) = true <-> contains m a = true \/ contains m b = true).
  { split.
    - induction a as [|e a IH].
      + cbn [append]. intro C. right. unfold contains in *. cbn [cut] in C.
        destruct (prefix m (String c b)) eqn:P.
        * exfalso. destruct m as [|d m]; [now apply M|]. cbn in P, H. apply orb_false_iff in H.
          destruct (ascii_dec d c) as [->|]; [|discriminate]. rewrite Ascii.eqb_refl in H. destruct H; discriminate.
        * destruct (cut m b) as [[? ?]|]; [reflexivity|discriminate].
      + cbn [append]. intro C. unfold contains in C. cbn [cut] in C.
        destruct (prefix m (String e (a ++ String c b))) eqn:P.
        * left. change (String e (a ++ String c b)) with (String e a ++ String c b) in P.
          apply prefix_sep in P; [|exact H]. unfold contains. cbn [cut]. now rewrite P.
        * destruct (cut m (a ++ String c b)) as [[? ?]|] eqn:Q; [|discriminate].
          destruct IH as [I|I]; [unfold contains; now rewrite Q| |now right].
          left. apply contains_iff in I. destruct I as (x & y & ->). apply contains_iff. now exists (String e x), y.
    - intros [C|C]; apply contains_iff in C; destruct C as (x & y & ->); apply contains_iff.
      + exists x, (y ++ String c b). now rewrite !app_assoc_s.
      + exists (a ++ String c x), y. now rewrite app_assoc_s. }
  destruct (contains m (a ++ String c b)), (contains m a), (contains m b); cbn; intuition.
Qed.
Lemma contains_key : forall n t, contains "meters" (key n t) = contains "meters" n || contains "meters" t.
Proof.
  intros n t. unfold key. change ("/" ++ n ++ "/" ++ t) with ("" ++ String slash (n ++ String slash t)).
  rewrite !contains_sep by (reflexivity || discriminate). reflexivity.
Qed.

(** ** Runs *)
(** Parts of a run: different names without slashes; the two names the returned dictionary uses itself are not used. *)
Record proper (parts : list stored) (ctrls : list (string * (string -> nat))) : Prop := {
  pr_distinct : NoDup (map s_name parts);
  pr_plain : forall p, In p parts -> plain (s_name p);
  pr_extra : forall p, In p parts -> In (s_extra p) [[]; heated_tables; chp_tables];
  pr_own : forall p, In p parts -> s_name p <> "sim_vecs" /\ s_name p <> "meters";
  pr_ctrl : forall c, In c ctrls -> plain (fst c) }.

Definition all_tables : list string := ["res"; "dm"; "heating"; "Pel"; "Pgas"; "chp_state"].
Lemma tables_known : forall p t, In (s_extra p) [[]; heated_tables; chp_tables] -> In t (s_tables p) -> In t all_tables.
Proof.
  intros p t E T. unfold s_tables in T. cbn in E. destruct E as [E|[E|[E|[]]]]; rewrite <- E in T; cbn in T |- *; tauto.
Qed.
Lemma known_plain : forall t, In t all_tables -> plain t /\ contains "meters" t = false.
Proof. intros t H. cbn in H. repeat destruct H as [<-|H]; try (split; reflexivity). destruct H. Qed.
Lemma ctrl_keys : forall n k, plain n -> In k (ctrl_tables n) -> exists m t, k = key m t /\ plain m /\ plain t /\
  ~ In t all_tables /\ contains "meters" t = false /\ (contains "meters" m = contains "meters" n).
Proof.
  intros n k N H. assert (O : plain (n ++ "_opt")) by (apply plain_app; [exact N|reflexivity]).
  assert (C : contains "meters" (n ++ "_opt") = contains "meters" n).
  { change (n ++ "_opt") with (n ++ String "_" "opt"). rewrite contains_sep by (reflexivity || discriminate).
    apply orb_false_r. }
  cbn in H. repeat destruct H as [<-|H]; try (eexists; eexists; split; [reflexivity|]; split; [assumption|];
    split; [reflexivity|]; split; [|split; [reflexivity|try reflexivity; exact C]];
    intro I; cbn in I; repeat destruct I as [I|I]; try discriminate; destruct I).
  destruct H.
Qed.

Section Run.
Variables (parts : list stored) (vecs : nat) (ctrls : list (string * (string -> nat))).
Hypothesis P : proper parts ctrls.
Let F := run_file parts vecs ctrls.

(** Which names the file has. *)
Lemma file_keys : forall k, In k (map fst F) <->
  (exists c, In c ctrls /\ In k (ctrl_tables (fst c))) \/ k = "/sim_vecs" \/
  (exists p t, In p parts /\ s_keep p = true /\ In t (s_tables p) /\ k = key (s_name p) t).
Proof.
  intros k. unfold F, run_file. rewrite keys_put_all, keys_put, keys_put_all. cbn [map In].
  split.
  - intros [H|[H|[H|[]]]].
    + left. apply in_map_iff in H. destruct H as (e & <- & H). apply in_flat_map in H. destruct H as (c & C & H).
      apply in_map_iff in H. destruct H as (k & <- & H). now exists c.
    + now right; left.
    + right; right. apply in_map_iff in H. destruct H as (e & <- & H). apply in_flat_map in H. destruct H as (p & Q & H).
      apply filter_In in Q. unfold part_tables in H. apply in_map_iff in H. destruct H as (t & <- & H). exists p, t. tauto.
  - intros [(c & C & H)|[->|(p & t & Q & K & T & ->)]].
    + left. apply in_map_iff. exists (k, snd c k). split; [reflexivity|]. apply in_flat_map. exists c. split; [exact C|].
      apply in_map_iff. now exists k.
    + now right; left.
    + right; right; left. apply in_map_iff. exists (key (s_name p) t, s_data p t). split; [reflexivity|].
      apply in_flat_map. exists p. split; [now apply filter_In|]. unfold part_tables. apply in_map_iff. now exists t.
Qed.

Lemma file_nodup : NoDup (map fst F).
Proof. unfold F, run_file. apply nodup_put_all, nodup_put, nodup_put_all. constructor. Qed.

Lemma same_name : forall p q, In p parts -> In q parts -> s_name p = s_name q -> p = q.
Proof.
  destruct P as [D _ _ _ _]. revert D. clear. induction parts as [|a l IH]; intros D p q Ip Iq E; [destruct Ip|].
  cbn in D. inversion D as [|? ? N D']; subst. destruct Ip as [->|Ip], Iq as [->|Iq]; auto.
  - exfalso. apply N. rewrite E. now apply in_map.
  - exfalso. apply N. rewrite <- E. now apply in_map.
Qed.

Lemma find_ctrl_out : forall n t f, plain n -> In t all_tables ->
  find (key n t) (put_all (flat_map (fun c => map (fun k => (k, snd c k)) (ctrl_tables (fst c))) ctrls) f) =
  find (key n t) f.
Proof.
  intros n t f N T. apply put_all_out. intros e I E. apply in_flat_map in I. destruct I as (c & C & I).
  apply in_map_iff in I. destruct I as (k & <- & I). cbn [fst] in E. subst k.
  apply ctrl_keys in I; [|now apply (pr_ctrl _ _ P)]. destruct I as (m & t' & E & M & T' & X & _).
  apply key_inj in E; auto; [|now apply known_plain]. destruct E as [-> ->]. contradiction.
Qed.

(** Table [t] of a part in the file. *)
Lemma find_table : forall p t, In p parts -> In t all_tables ->
  find (key (s_name p) t) F = if s_keep p then if in_dec string_dec t (s_tables p) then Some (s_data p t) else None else None.
Proof.
  intros p t I T. pose proof (pr_plain _ _ P p I) as N. destruct (known_plain t T) as [TP _].
  unfold F, run_file. rewrite find_ctrl_out by assumption. rewrite find_put.
  destruct (String.eqb_spec "/sim_vecs" (key (s_name p) t)) as [E|_].
  { assert (H : split "/sim_vecs" = split (key (s_name p) t)) by now rewrite E. rewrite split_key in H by assumption. discriminate. }
  assert (U : forall e, In e (flat_map part_tables (filter s_keep parts)) -> fst e = key (s_name p) t ->
                s_keep p = true /\ In t (s_tables p) /\ snd e = s_data p t).
  { intros e Ie E. apply in_flat_map in Ie. destruct Ie as (q & Q & Ie). apply filter_In in Q. destruct Q as [Q K].
    unfold part_tables in Ie. apply in_map_iff in Ie. destruct Ie as (u & <- & Iu). cbn [fst snd] in *.
    pose proof (tables_known q u (pr_extra _ _ P q Q) Iu) as KU.
    apply key_inj in E; [|now apply (pr_plain _ _ P)|now apply known_plain|assumption|assumption].
    destruct E as [E ->]. apply same_name in E; [|assumption|assumption]. subst q. auto. }
  destruct (s_keep p) eqn:K; [destruct (in_dec string_dec t (s_tables p)) as [S|S]|].
  - apply put_all_in.
    + exists (key (s_name p) t, s_data p t). split; [|reflexivity]. apply in_flat_map. exists p.
      split; [now apply filter_In|]. unfold part_tables. apply in_map_iff. now exists t.
    + intros e Ie E. now apply U.
  - rewrite put_all_out; [reflexivity|]. intros e Ie E. apply U in Ie; [|exact E]. tauto.
  - rewrite put_all_out; [reflexivity|]. intros e Ie E. apply U in Ie; [|exact E]. destruct Ie; discriminate.
Qed.

Variable ms : list meter.
Hypothesis MP : forall m, In m ms -> plain (m_name m).
Let G := meter_file ms F.

Lemma find_table_m : forall p t, In p parts -> In t all_tables -> find (key (s_name p) t) G = find (key (s_name p) t) F.
Proof.
  intros p t I T. unfold G, meter_file. apply put_all_out. intros e Ie E. apply in_map_iff in Ie.
  destruct Ie as (m & <- & Im). cbn [fst] in E. apply key_inj in E; [|reflexivity|now apply MP|now apply (pr_plain _ _ P)|now apply known_plain].
  destruct (pr_own _ _ P p I) as [_ W]. apply W. symmetry. tauto.
Qed.

Lemma extra_found : forall p ts, In p parts -> s_keep p = true -> (forall t, In t ts -> In t (s_extra p)) ->
  extra_tables (s_name p) ts G = Some (map (fun t => (t, s_data p t)) ts).
Proof.
  intros p ts I K. induction ts as [|t ts IH]; intros H; [reflexivity|]. cbn [extra_tables map].
  assert (T : In t (s_tables p)) by (right; right; apply H; now left).
  rewrite find_table_m, find_table, K by (assumption || (eapply tables_known; [apply (pr_extra _ _ P), I|exact T])).
  destruct (in_dec string_dec t (s_tables p)); [|contradiction]. rewrite IH by (intros; apply H; now right). reflexivity.
Qed.

Lemma read_one : forall p d, In p parts -> read_part G p d =
  if s_keep p then put (s_name p) (Tables (map (fun t => (t, s_data p t)) (s_tables p))) d else d.
Proof.
  intros p d I. unfold read_part. rewrite !find_table_m, !find_table by (assumption || (cbn; tauto)).
  destruct (s_keep p) eqn:K; [|reflexivity].
  destruct (in_dec string_dec "res" (s_tables p)) as [_|N]; [|exfalso; apply N; cbn; tauto].
  destruct (in_dec string_dec "dm" (s_tables p)) as [_|N]; [|exfalso; apply N; cbn; tauto].
  rewrite extra_found by auto. reflexivity.
Qed.

Lemma read_all : forall l d p, (forall q, In q l -> In q parts) -> NoDup (map s_name l) -> In p parts ->
  find (s_name p) (fold_left (fun d p => read_part G p d) l d) =
  if in_dec string_dec (s_name p) (map s_name l)
  then if s_keep p then Some (Tables (map (fun t => (t, s_data p t)) (s_tables p))) else find (s_name p) d
  else find (s_name p) d.
Proof.
  induction l as [|q l IH]; intros d p S N I; [reflexivity|]. cbn [fold_left map].
  cbn in N. inversion N as [|? ? N1 N2]; subst. rewrite IH; [|intros; apply S; now right|assumption|assumption].
  rewrite read_one by (apply S; now left).
  destruct (in_dec string_dec (s_name p) (map s_name l)) as [J|J];
    destruct (in_dec string_dec (s_name p) (s_name q :: map s_name l)) as [J'|J'].
  - destruct (s_keep p); [reflexivity|]. destruct (s_keep q); [|reflexivity]. rewrite find_put.
    destruct (String.eqb_spec (s_name q) (s_name p)) as [E|]; [|reflexivity]. rewrite <- E in J. contradiction.
  - exfalso. apply J'. now right.
  - destruct J' as [E|J']; [|contradiction].
    assert (q = p) by (apply same_name; [apply S; now left|assumption|exact E]). subst q.
    destruct (s_keep p); [|reflexivity]. rewrite find_put, String.eqb_refl. reflexivity.
  - destruct (s_keep q); [|reflexivity]. rewrite find_put.
    destruct (String.eqb_spec (s_name q) (s_name p)) as [E|]; [|reflexivity]. exfalso. apply J'. now left.
Qed.
End Run.

(** ** Parts *)
(** Each part whose results are kept is returned with all its tables, every other part is not. *)
Theorem C172_parts : forall parts vecs ctrls ms d, proper parts ctrls -> (forall m, In m ms -> plain (m_name m)) ->
  return_stored parts (meter_file ms (run_file parts vecs ctrls)) = Some d -> forall p, In p parts ->
  find (s_name p) d =
    if s_keep p then Some (Tables (map (fun t => (t, s_data p t)) ("res" :: "dm" :: s_extra p))) else None.
Proof.
  intros parts vecs ctrls ms d P M R p I. unfold return_stored in R.
  destruct (find "/sim_vecs" _) as [v|]; [|discriminate].
  assert (B : forall v', find (s_name p) (put "sim_vecs" v' (fold_left
     (fun d p => read_part (meter_file ms (run_file parts vecs ctrls)) p d) parts [])) =
     if s_keep p then Some (Tables (map (fun t => (t, s_data p t)) ("res" :: "dm" :: s_extra p))) else None).
  { intros v'. rewrite find_put. destruct (pr_own _ _ P p I) as [W _].
    destruct (String.eqb_spec "sim_vecs" (s_name p)); [congruence|].
    rewrite (read_all parts vecs ctrls P ms M); [|auto|apply (pr_distinct _ _ P)|exact I].
    destruct (in_dec string_dec (s_name p) (map s_name parts)) as [_|N]; [reflexivity|]. exfalso. apply N. now apply in_map. }
  destruct (read_meters _ []) as [[|e l]|]; [| |discriminate]; injection R as <-; [apply B|].
  rewrite find_put. destruct (pr_own _ _ P p I) as [_ W]. destruct (String.eqb_spec "meters" (s_name p)); [congruence|apply B].
Qed.
Print Assumptions C172_parts.

(** ** Meters *)
Lemma read_meters_spec : forall f acc, NoDup (map fst f) ->
  (forall k, In k (map fst f) -> contains "meters" k = true -> exists n, plain n /\ k = key "meters" n) ->
  exists l, read_meters f acc = Some l /\
    forall n, find n l = match find (key "meters" n) f with Some v => Some v | None => find n acc end.
Proof.
  induction f as [|[k v] f IH]; intros acc N H; [exists acc; split; [reflexivity|reflexivity]|].
  cbn in N. inversion N as [|? ? N1 N2]; subst. cbn [read_meters find].
  destruct (contains "meters" k) eqn:C.
  - destruct (H k (or_introl eq_refl) C) as (n & PN & ->). rewrite split_key by (exact PN || reflexivity). cbn [nth_error].
    destruct (IH (put n v acc) N2) as (l & L & S); [intros; apply H; [now right|assumption]|].
    exists l. split; [exact L|]. intros m. rewrite S, find_put. destruct (String.eqb_spec n m) as [->|E].
    + rewrite String.eqb_refl. destruct (find (key "meters" m) f) eqn:Q; [|reflexivity].
      exfalso. assert (In (key "meters" m) (map fst f)).
      { destruct (in_dec string_dec (key "meters" m) (map fst f)) as [I|I]; [exact I|]. apply find_none in I. congruence. }
      contradiction.
    + destruct (String.eqb_spec (key "meters" n) (key "meters" m)) as [Q|_]; [|reflexivity].
      exfalso. apply E. unfold key in Q. apply (app_inj_l "/meters/"). exact Q.
  - destruct (IH acc N2) as (l & L & S); [intros; apply H; [now right|assumption]|]. exists l. split; [exact L|].
    intros m. rewrite S. destruct (String.eqb_spec k (key "meters" m)) as [->|_]; [|reflexivity].
    exfalso. rewrite contains_key in C. discriminate.
Qed.

(** If no part and no controller has "meters" in its name and the meters have different names, the meters are returned,
    and nothing else is taken for a meter. *)
Theorem C172_meters : forall parts vecs ctrls ms, proper parts ctrls ->
  (forall m, In m ms -> plain (m_name m)) -> NoDup (map m_name ms) ->
  (forall p, In p parts -> contains "meters" (s_name p) = false) ->
  (forall c, In c ctrls -> contains "meters" (fst c) = false) ->
  exists d, return_stored parts (meter_file ms (run_file parts vecs ctrls)) = Some d /\
    find "sim_vecs" d = Some (Vectors vecs) /\
    (ms = [] -> find "meters" d = None) /\
    (ms <> [] -> exists l, find "meters" d = Some (MeterTables l) /\
       forall n v, find n l = Some v <-> exists k, In (mkMeter k n v) ms).
Proof.
  intros parts vecs ctrls ms P MP D NP NC.
  set (F := run_file parts vecs ctrls). set (G := meter_file ms F).
  assert (NG : NoDup (map fst G)) by (apply nodup_put_all; apply file_nodup).
  assert (FK : forall k, In k (map fst F) -> contains "meters" k = false).
  { intros k I. apply file_keys in I. destruct I as [(c & C & I)|[->|(p & t & I & K & T & ->)]]; [|reflexivity|].
    - apply ctrl_keys in I; [|now apply (pr_ctrl _ _ P)]. destruct I as (m & t & -> & _ & _ & _ & Q & R).
      rewrite contains_key, Q, R, (NC c C). reflexivity.
    - rewrite contains_key, (NP p I). apply known_plain. eapply tables_known; [apply (pr_extra _ _ P), I|exact T]. }
  assert (GK : forall k, In k (map fst G) -> contains "meters" k = true -> exists n, plain n /\ k = key "meters" n).
  { intros k I C. unfold G, meter_file in I. apply keys_put_all in I. destruct I as [I|I].
    - apply in_map_iff in I. destruct I as (e & <- & I). apply in_map_iff in I. destruct I as (m & <- & I).
      exists (m_name m). split; [now apply MP|reflexivity].
    - apply FK in I. congruence. }
  destruct (read_meters_spec G [] NG GK) as (l & L & S).
  assert (V : forall n v, find n l = Some v <-> exists k, In (mkMeter k n v) ms).
  { intros n v. rewrite S. cbn [find].
    destruct (in_dec string_dec n (map m_name ms)) as [I|I].
    - apply in_map_iff in I. destruct I as (m & <- & I).
      assert (U : forall m', In m' ms -> m_name m' = m_name m -> m' = m).
      { intros m' I' E. revert D I I' E. clear. induction ms as [|a r IH]; intros D I I' E; [destruct I|].
        cbn in D. inversion D as [|? ? N1 N2]; subst. destruct I as [->|I], I' as [->|I']; auto.
        - exfalso. apply N1. rewrite <- E. now apply in_map.
        - exfalso. apply N1. rewrite E. now apply in_map. }
      unfold G, meter_file. rewrite (put_all_in _ _ (m_data m)).
      + split; [intros E; injection E as <-; exists (m_kind m); destruct m; exact I|].
        intros (k & I'). f_equal. specialize (U _ I' eq_refl). now rewrite <- U.
      + exists (key "meters" (m_name m), m_data m). split; [|reflexivity]. apply in_map_iff. now exists m.
      + intros e Ie E. apply in_map_iff in Ie. destruct Ie as (m' & <- & I'). cbn [fst snd] in *.
        unfold key in E. apply (app_inj_l "/meters/") in E. now rewrite (U m' I' E).
    - assert (Z : find (key "meters" n) G = None).
      { apply find_none. intro K. unfold G, meter_file in K. apply keys_put_all in K. destruct K as [K|K].
        - apply in_map_iff in K. destruct K as (e & E & K). apply in_map_iff in K. destruct K as (m & <- & K). cbn [fst] in E.
          unfold key in E. apply (app_inj_l "/meters/") in E. apply I. rewrite <- E. now apply in_map.
        - apply FK in K. rewrite contains_key in K. discriminate. }
      rewrite Z. split; [discriminate|]. intros (k & I'). exfalso. apply I. apply (in_map m_name) in I'. exact I'. }
  assert (SV : find "/sim_vecs" G = Some vecs).
  { unfold G, meter_file. rewrite put_all_out.
    - unfold F, run_file. rewrite put_all_out; [rewrite find_put; reflexivity|].
      intros e I E. apply in_flat_map in I. destruct I as (c & C & I). apply in_map_iff in I. destruct I as (k & <- & I).
      cbn [fst] in E. subst k. apply ctrl_keys in I; [|now apply (pr_ctrl _ _ P)]. destruct I as (m & t & E & M1 & T1 & _).
      assert (Q : split "/sim_vecs" = split (key m t)) by now rewrite E. rewrite split_key in Q by assumption. discriminate.
    - intros e I E. apply in_map_iff in I. destruct I as (m & <- & I). cbn [fst] in E. discriminate. }
  assert (B : forall w, find "meters" (put "sim_vecs" w (fold_left (fun d p => read_part G p d) parts [])) = None).
  { intros w. rewrite find_put. cbn [String.eqb]. change ("sim_vecs" =? "meters") with false. cbn iota.
    assert (Q : forall l d, (forall p, In p l -> In p parts) -> find "meters" d = None ->
              find "meters" (fold_left (fun d p => read_part G p d) l d) = None).
    { induction l0 as [|p l0 IH]; intros d0 SB E; [exact E|]. cbn [fold_left]. apply IH; [intros; apply SB; now right|].
      unfold read_part. destruct (find (key (s_name p) "res") G); [|exact E].
      destruct (find (key (s_name p) "dm") G); [|exact E]. rewrite find_put.
      destruct (pr_own _ _ P p (SB p (or_introl eq_refl))) as [_ W].
      destruct (String.eqb_spec (s_name p) "meters"); [contradiction|exact E]. }
    apply Q; [auto|reflexivity]. }
  unfold return_stored. fold G. rewrite SV, L. destruct l as [|e l].
  - eexists. split; [reflexivity|]. split; [now rewrite find_put|]. split; [intros _; apply B|].
    intros NE. exfalso. destruct ms as [|m r]; [now apply NE|].
    assert (H : find (m_name m) (@nil (string * nat)) = Some (m_data m)) by (apply V; exists (m_kind m); left; now destruct m).
    discriminate.
  - eexists. split; [reflexivity|]. split; [rewrite !find_put; reflexivity|]. split.
    + intros ->. exfalso. destruct e as [n v]. assert (H : find n ((n, v) :: l) = Some v) by (cbn; now rewrite String.eqb_refl).
      apply V in H. destruct H as (k & []).
    + intros _. exists (e :: l). split; [now rewrite find_put|exact V].
Qed.
Print Assumptions C172_meters.

(** ** A run with results kept, results not kept, a controller and two meters *)
Definition ex_data (n : nat) (t : string) : nat := n + String.length t.
Definition ex_parts : list stored :=
  [mkStored "tes" true [] (ex_data 10); mkStored "boiler" true heated_tables (ex_data 20);
   mkStored "chp" true chp_tables (ex_data 30); mkStored "pipe" false [] (ex_data 40)].
Definition ex_ctrls : list (string * (string -> nat)) := [("opt_ctrl", ex_data 50)].
Definition ex_meters : list meter := [mkMeter 0 "heat" 7; mkMeter 1 "flow" 8].
Example C172_run : proper ex_parts ex_ctrls /\ meters_accepted ex_meters = true /\ NoDup (map m_name ex_meters) /\
  return_stored ex_parts (meter_file ex_meters (run_file ex_parts 5 ex_ctrls)) = Some
    [("tes", Tables [("res", 13); ("dm", 12)]);
     ("boiler", Tables [("res", 23); ("dm", 22); ("heating", 27)]);
     ("chp", Tables [("res", 33); ("dm", 32); ("heating", 37); ("Pel", 33); ("Pgas", 34); ("chp_state", 39)]);
     ("sim_vecs", Vectors 5); ("meters", MeterTables [("heat", 7); ("flow", 8)])].
Proof.
  split; [|split; [reflexivity|split; [|reflexivity]]].
  - split.
    + cbn. repeat constructor; cbn; intuition discriminate.
    + cbn. intuition (subst; reflexivity).
    + cbn. intuition (subst; cbn; tauto).
    + cbn. intuition (subst; discriminate).
    + cbn. intuition (subst; reflexivity).
  - cbn. repeat constructor; cbn; intuition discriminate.
Qed.

(** ** Where it fails *)
(** Tables of a kept part whose name contains "meters" are also returned as those of meters, without any meter. *)
Theorem C172_part_as_meter_refuted : forall n vecs w, plain n -> contains "meters" n = true -> n <> "meters" ->
  let p := mkStored n true [] w in
  proper [p] [] /\ exists d l, return_stored [p] (meter_file [] (run_file [p] vecs [])) = Some d /\
    find "meters" d = Some (MeterTables l) /\ find "res" l = Some (w "res") /\ find "dm" l = Some (w "dm").
Proof.
  intros n vecs w N C M p.
  assert (K : split n <> split "sim_vecs").
  { rewrite N. intros E. injection E as ->. discriminate. }
  assert (PR : proper [p] []).
  { split; cbn.
    - repeat constructor. intros [].
    - intros q [<-|[]]. exact N.
    - intros q [<-|[]]. now left.
    - intros q [<-|[]]. cbn. split; [|exact M]. intros ->. now apply K.
    - intros c []. }
  split; [exact PR|].
  assert (RD : (key n "res" =? key n "dm") = false).
  { apply String.eqb_neq. intros E. apply key_inj in E; [|exact N|reflexivity|exact N|reflexivity]. destruct E; discriminate. }
  assert (SK : forall t, plain t -> (key n t =? "/sim_vecs") = false).
  { intros t T. apply String.eqb_neq. intros E. assert (Q : split (key n t) = split "/sim_vecs") by now rewrite E.
    rewrite split_key in Q by assumption. discriminate. }
  assert (FE : meter_file [] (run_file [p] vecs []) = [(key n "res", w "res"); (key n "dm", w "dm"); ("/sim_vecs", vecs)]).
  { unfold meter_file, run_file, put_all. cbn [filter s_keep p flat_map map fold_left part_tables s_tables s_extra s_name s_data List.app].
    cbn [fst snd put]. rewrite RD. cbn [put]. rewrite !SK by reflexivity. reflexivity. }
  rewrite FE. unfold return_stored. cbn [find]. rewrite !SK by reflexivity. cbn [String.eqb Ascii.eqb Bool.eqb].
  assert (RM : read_meters [(key n "res", w "res"); (key n "dm", w "dm"); ("/sim_vecs", vecs)] [] =
               Some [("res", w "res"); ("dm", w "dm")]).
  { cbn [read_meters]. rewrite !contains_key, C. cbn [orb]. rewrite !split_key by (exact N || reflexivity). reflexivity. }
  change (("/sim_vecs" =? "/sim_vecs")) with true. cbn iota. rewrite RM.
  eexists. eexists. split; [reflexivity|]. split; [apply (find_put _ "meters" "meters")|]. split; reflexivity.
Qed.
Print Assumptions C172_part_as_meter_refuted.

(** Meters are accepted exactly if no two of the same kind have the same name. *)
Theorem C172_accepted : forall l, meters_accepted l = true <-> NoDup (map (fun m => (m_kind m, m_name m)) l).
Proof.
  induction l as [|m l IH]; cbn [meters_accepted map]; [split; [constructor|reflexivity]|].
  rewrite andb_true_iff, IH, negb_true_iff. split.
  - intros [E N]. constructor; [|exact N]. intros I. apply in_map_iff in I. destruct I as (n & Q & I). injection Q as Q1 Q2.
    assert (existsb (fun n => (m_kind n =? m_kind m)%nat && (m_name n =? m_name m)) l = true); [|congruence].
    apply existsb_exists. exists n. split; [exact I|]. rewrite Q1, Q2, Nat.eqb_refl, String.eqb_refl. reflexivity.
  - intros N. inversion N as [|? ? NI N']; subst. split; [|exact N'].
    destruct (existsb _ l) eqn:E; [|reflexivity]. exfalso. apply existsb_exists in E. destruct E as (n & I & E).
    apply andb_true_iff in E. destruct E as [E1 E2]. apply Nat.eqb_eq in E1. apply String.eqb_eq in E2. apply NI.
    apply in_map_iff. exists n. rewrite E1, E2. auto.
Qed.
Print Assumptions C172_accepted.

(** Two meters of different kinds may have the same name: only the later one is in the file. *)
Theorem C172_same_name_refuted : forall k k' n v v' f, k <> k' ->
  meters_accepted [mkMeter k n v; mkMeter k' n v'] = true /\
  (forall x, find x (meter_file [mkMeter k n v; mkMeter k' n v'] f) = find x (meter_file [mkMeter k' n v'] f)) /\
  find (key "meters" n) (meter_file [mkMeter k n v; mkMeter k' n v'] f) = Some v'.
Proof.
  intros k k' n v v' f D. split; [|split].
  - cbn. assert (E : (k' =? k)%nat = false) by (apply Nat.eqb_neq; congruence). now rewrite E.
  - intros x. unfold meter_file, put_all. cbn [map fold_left fst snd m_name m_data]. rewrite !find_put.
    destruct (key "meters" n =? x); reflexivity.
  - unfold meter_file, put_all. cbn [map fold_left fst snd m_name m_data]. rewrite find_put, String.eqb_refl. reflexivity.
Qed.
Print Assumptions C172_same_name_refuted.

(** A part called "meters": its results are not returned, a list of tables taken for meters takes their place. *)
Theorem C172_own_name_refuted : forall vecs w,
  let p := mkStored "meters" true [] w in
  exists d, return_stored [p] (run_file [p] vecs []) = Some d /\
    find "meters" d = Some (MeterTables [("res", w "res"); ("dm", w "dm")]).
Proof. intros vecs w p. eexists. split; reflexivity. Qed.
Print Assumptions C172_own_name_refuted.
(** A part called "sim_vecs": its results are replaced by the time vectors. *)
Theorem C172_vecs_name_refuted : forall vecs w,
  let p := mkStored "sim_vecs" true [] w in
  return_stored [p] (run_file [p] vecs []) = Some [("sim_vecs", Vectors vecs)].
Proof. intros vecs w p. reflexivity. Qed.
Print Assumptions C172_vecs_name_refuted.

(** ** Results of a run that was stopped *)
(** [load_failed_results] reads every file all of whose keys have a name and a table; what it returns is the file. *)
Lemma load_failed_spec : forall f d, NoDup (map fst f) ->
  (forall k, In k (map fst f) -> exists n t, plain n /\ plain t /\ k = key n t) ->
  exists d', load_failed f d = Some d' /\ forall n t, plain n -> plain t ->
    match find n d' with Some l => find t l | None => None end =
    match find (key n t) f with
    | Some v => Some v
    | None => match find n d with Some l => find t l | None => None end
    end.
Proof.
  induction f as [|[k v] f IH]; intros d D H; [now exists d|].
  cbn in D. inversion D as [|? ? D1 D2]; subst. destruct (H k (or_introl eq_refl)) as (n & t & N & T & ->).
  cbn [load_failed]. rewrite split_key by assumption.
  edestruct IH as (d' & E & S); [exact D2|intros; apply H; now right|]. exists d'. split; [exact E|].
  intros n' t' N' T'. rewrite S by assumption. cbn [find].
  destruct (String.eqb_spec (key n t) (key n' t')) as [Q|Q].
  - apply key_inj in Q; try assumption. destruct Q as [<- <-].
    assert (Z : find (key n t) f = None) by now apply find_none. rewrite Z, !find_put, String.eqb_refl, find_put, String.eqb_refl.
    reflexivity.
  - destruct (find (key n' t') f); [reflexivity|]. rewrite find_put. destruct (String.eqb_spec n n') as [<-|]; [|reflexivity].
    rewrite find_put. destruct (String.eqb_spec t t') as [<-|]; [now destruct Q|]. destruct (find n d); reflexivity.
Qed.
Theorem C172_failed : forall parts, proper parts [] ->
  exists d, load_failed (put_all (flat_map part_tables (filter s_keep parts)) []) [] = Some d /\
    forall p, In p parts -> s_keep p = true -> forall t, In t (s_tables p) ->
      exists l, find (s_name p) d = Some l /\ find t l = Some (s_data p t).
Proof.
  intros parts P. set (f := put_all (flat_map part_tables (filter s_keep parts)) []).
  assert (KK : forall k, In k (map fst f) -> exists p t, In p parts /\ In t (s_tables p) /\ k = key (s_name p) t).
  { intros k I. unfold f in I. apply keys_put_all in I. destruct I as [I|[]]. apply in_map_iff in I. destruct I as (e & <- & I).
    apply in_flat_map in I. destruct I as (p & Q & I). apply filter_In in Q. unfold part_tables in I. apply in_map_iff in I.
    destruct I as (t & <- & I). exists p, t. tauto. }
  destruct (load_failed_spec f []) as (d & E & S).
  - apply nodup_put_all. constructor.
  - intros k I. destruct (KK k I) as (p & t & Ip & It & ->). exists (s_name p), t.
    split; [now apply (pr_plain _ _ P)|]. split; [|reflexivity]. apply known_plain. eapply tables_known; [apply (pr_extra _ _ P), Ip|exact It].
  - exists d. split; [exact E|]. intros p I K t T.
    pose proof (tables_known p t (pr_extra _ _ P p I) T) as KT.
    specialize (S (s_name p) t (pr_plain _ _ P p I) (proj1 (known_plain t KT))).
    pose proof (find_table parts 0 [] P p t I KT) as FT. unfold run_file in FT. cbn [flat_map] in FT. unfold put_all at 1 in FT.
    cbn [fold_left] in FT. rewrite find_put in FT. fold f in FT. rewrite K in FT.
    destruct (in_dec string_dec t (s_tables p)); [|contradiction].
    destruct (String.eqb_spec "/sim_vecs" (key (s_name p) t)) as [Q|_].
    { assert (Z : split "/sim_vecs" = split (key (s_name p) t)) by now rewrite Q.
      rewrite split_key in Z by (now apply (pr_plain _ _ P) || now apply known_plain). discriminate. }
    rewrite FT in S. destruct (find (s_name p) d) as [l|]; [|discriminate]. now exists l.
Qed.
Print Assumptions C172_failed.

(** The file of a run that came to its end cannot be read this way: the time vectors have one section only. *)
Theorem C172_failed_refuted : forall parts vecs, proper parts [] -> load_failed (run_file parts vecs []) [] = None.
Proof.
  intros parts vecs P.
  assert (G : forall f d, In "/sim_vecs" (map fst f) -> load_failed f d = None).
  { induction f as [|[k v] f IH]; intros d I; [destruct I|]. cbn [load_failed]. destruct I as [E|I].
    - cbn in E. subst k. reflexivity.
    - destruct (split k) as [|a [|b [|c [|e r]]]]; try reflexivity. apply IH, I. }
  apply G. apply (file_keys parts vecs []). now right; left.
Qed.
Print Assumptions C172_failed_refuted.
