(** C166: packaging of results; C167: loading of results. *)
From Coq Require Import String Ascii List Arith Bool Lia Permutation.
From Verif Require Import MPack.
Import ListNotations.
Open Scope string_scope.
Infix "+++" := List.app (at level 60, right associativity).

(** ** Texts *)
Lemma drop_app : forall t r, drop (String.length t) (t ++ r) = r.
Proof. induction t as [|c t IH]; intros r; [destruct r; reflexivity|exact (IH r)]. Qed.
Lemma prefix_app : forall t s, prefix t s = true <-> exists r, s = t ++ r.
Proof.
  induction t as [|c t IH]; intros s; cbn [prefix append].
  - split; [intros _; exists s; reflexivity|intros; destruct s; reflexivity].
  - destruct s as [|d s]; [split; [discriminate|intros [r E]; discriminate]|].
    replace (prefix (String c t) (String d s)) with (if ascii_dec c d then prefix t s else false) by reflexivity.
    destruct (ascii_dec c d) as [->|N].
    + rewrite IH. split; intros [r E]; exists r; [rewrite E; reflexivity|injection E as E; exact E].
    + split; [discriminate|intros [r E]; injection E as E _; congruence].
Qed.
Lemma app_assoc_s : forall a b c : string, (a ++ b) ++ c = a ++ (b ++ c).
Proof. induction a as [|x a IH]; intros; [reflexivity|cbn; f_equal; apply IH]. Qed.
Lemma app_nil_s : forall a : string, a ++ "" = a.
Proof. induction a as [|x a IH]; [reflexivity|cbn; f_equal; exact IH]. Qed.

(** [cut] finds the first place. *)
Lemma cut_some : forall t s a b, cut t s = Some (a, b) -> s = a ++ t ++ b.
Proof.
  intros t; induction s as [|c s IH]; intros a b H; cbn [cut] in H.
  - destruct (prefix t "") eqn:P; [|discriminate]. injection H as <- <-.
    apply prefix_app in P. destruct P as [r E]. rewrite E at 1. cbn [append]. f_equal.
    rewrite E. symmetry. apply drop_app.
  - destruct (prefix t (String c s)) eqn:P.
    + injection H as <- <-. apply prefix_app in P. destruct P as [r E]. rewrite E at 1. cbn [append]. f_equal.
      rewrite E. symmetry. apply drop_app.
    + destruct (cut t s) as [[a' b']|]; [|discriminate]. injection H as <- <-. cbn. f_equal. apply IH. reflexivity.
Qed.
Lemma cut_none : forall t s, cut t s = None -> forall a b, s <> a ++ t ++ b.
Proof.
  intros t; induction s as [|c s IH]; intros H a b E; cbn [cut] in H.
  - destruct (prefix t "") eqn:P; [discriminate|]. destruct a; [|discriminate].
    cbn in E. assert (prefix t "" = true) by (apply prefix_app; eauto). congruence.
  - destruct (prefix t (String c s)) eqn:P; [discriminate|].
    destruct (cut t s) as [[a' b']|]; [discriminate|]. destruct a as [|x a].
    + cbn in E. assert (prefix t (String c s) = true) by (apply prefix_app; eauto). congruence.
    + injection E as _ E. exact (IH eq_refl a b E).
Qed.
Lemma contains_iff : forall t s, contains t s = true <-> exists a b, s = a ++ t ++ b.
Proof.
  intros t s. unfold contains. destruct (cut t s) as [[a b]|] eqn:C.
  - split; [intros _; exists a, b; exact (cut_some t s a b C)|reflexivity].
  - split; [discriminate|]. intros (a & b & E). destruct (cut_none t s C a b E).
Qed.
Lemma app_inj_r : forall x a b : string, a ++ x = b ++ x -> a = b.
Proof.
  assert (L : forall a b : string, String.length (a ++ b) = (String.length a + String.length b)%nat).
  { induction a as [|c a IH]; intros; [reflexivity|cbn; rewrite IH; reflexivity]. }
  intros x; induction a as [|c a IH]; intros [|d b] E; [reflexivity| | |].
  - exfalso. assert (Z := f_equal String.length E). cbn [append String.length] in Z.
    rewrite L in Z. lia.
  - exfalso. assert (Z := f_equal String.length E). cbn [append String.length] in Z. rewrite L in Z. lia.
  - injection E as <- E. f_equal. exact (IH b E).
Qed.
Lemma stem_iff : forall e s a, stem e s = Some a <-> s = a ++ e.
Proof.
  intros e. induction s as [|c s IH]; intros a; cbn [stem].
  - destruct (String.eqb_spec "" e) as [<-|N].
    + split; [intros [= <-]; reflexivity|]. rewrite app_nil_s. intros <-. reflexivity.
    + split; [discriminate|]. intros E. destruct a; [cbn in E; congruence|discriminate].
  - destruct (String.eqb_spec (String c s) e) as [E0|N].
    + split; [intros [= <-]; symmetry; rewrite E0; reflexivity|]. intros E. f_equal.
      apply (app_inj_r e). rewrite <- E. symmetry. exact E0.
    + destruct (stem e s) as [a'|] eqn:S.
      * split.
        -- intros [= <-]. cbn. f_equal. apply IH. reflexivity.
        -- intros E. destruct a as [|d a]; [cbn in E; congruence|]. injection E as <- E. do 2 f_equal.
           apply IH in E. congruence.
      * split; [discriminate|]. intros E. destruct a as [|d a]; [cbn in E; congruence|].
        injection E as <- E. apply IH in E. discriminate.
Qed.
Lemma mem_iff : forall n l, mem n l = true <-> In n l.
Proof.
  intros n l. unfold mem. rewrite existsb_exists. split.
  - intros (x & I & E). apply String.eqb_eq in E. subst. exact I.
  - intros I. exists n. split; [exact I|apply String.eqb_refl].
Qed.

(** ** Specification *)

(** All contents on the disk. *)
Definition contents (d : disk) : list nat :=
  map snd (src d) +++ flat_map (fun e => map snd (snd e)) (dst d).
(** The content of a file. *)
Definition holds (l : files) (n : string) (c : nat) : Prop := In (n, c) l.
(** A simulation that has ended: results and report are there, no temporary file. *)
Definition finished (l : files) (b : string) : Prop :=
  In (b ++ ".h5") (names l) /\ In (b ++ "_REPORT.csv") (names l) /\ ~ In (b ++ ".h5_tmp") (names l).

(** ** Moving files *)
Lemma take_perm : forall n l c r, take n l = Some (c, r) -> Permutation l ((n, c) :: r).
Proof.
  intros n; induction l as [|[m d] l IH]; intros c r H; cbn [take] in H; [discriminate|].
  destruct (String.eqb_spec m n) as [->|N].
  - injection H as <- <-. apply Permutation_refl.
  - destruct (take n l) as [[d' r']|]; [|discriminate]. injection H as <- <-.
    eapply Permutation_trans; [apply perm_skip, IH; reflexivity|apply perm_swap].
Qed.
Lemma take_none : forall n l, take n l = None <-> ~ In n (names l).
Proof.
  intros n; induction l as [|[m d] l IH]; cbn [take names map fst]; [split; [intros _ []|reflexivity]|].
  destruct (String.eqb_spec m n) as [->|N].
  - split; [discriminate|]. intros H. destruct H. left. reflexivity.
  - destruct (take n l) as [[d' r']|].
    + split; [discriminate|]. intros H. exfalso.
      assert (@None (nat * files) = None) as _ by reflexivity. destruct IH as [_ IH].
      enough (Some (d', r') = None) by discriminate. apply IH. intros I. apply H. right. exact I.
    + split; [|reflexivity]. intros _ [E|I]; [contradiction|]. destruct IH as [IH _]. exact (IH eq_refl I).
Qed.
Lemma write_new : forall n c l, ~ In n (names l) -> write n c l = l +++ [(n, c)].
Proof.
  intros n c; induction l as [|[m d] l IH]; intros H; cbn [write app]; [reflexivity|].
  destruct (String.eqb_spec m n) as [->|N]; [destruct H; left; reflexivity|].
  rewrite IH; [reflexivity|]. intros I. apply H. right. exact I.
Qed.
Lemma move_contents : forall n n' d d' b, move n n' d = (d', b) ->
  (forall dir fs r, dst d = (dir, fs) :: r -> ~ In n' (names fs)) ->
  Permutation (contents d) (contents d').
Proof.
  intros n n' [s t] d' b H F. unfold move in H. cbn [src dst] in *.
  destruct (take n s) as [[c r]|] eqn:T; [|injection H as <- <-; apply Permutation_refl].
  destruct t as [|[dir fs] t]; [injection H as <- <-; apply Permutation_refl|].
  injection H as <- <-. unfold contents. cbn [src dst flat_map snd].
  rewrite write_new by exact (F dir fs t eq_refl). rewrite map_app. cbn [map snd].
  pose proof (Permutation_map snd (take_perm n s c r T)) as P. cbn [map snd] in P.
  eapply Permutation_trans; [apply Permutation_app_tail; exact P|].
  cbn [app]. rewrite <- !app_assoc. cbn [app].
  replace (map snd r +++ map snd fs +++ c :: flat_map (fun e => map snd (snd e)) t)
    with ((map snd r +++ map snd fs) +++ c :: flat_map (fun e => map snd (snd e)) t) by (rewrite app_assoc; reflexivity).
  eapply Permutation_trans; [|apply Permutation_middle]. rewrite <- app_assoc. apply Permutation_refl.
Qed.
(** What a move does to the new folder and to the source. *)
Lemma move_true : forall n n' d d', move n n' d = (d', true) -> exists c s dir fs r,
  take n (src d) = Some (c, s) /\ dst d = (dir, fs) :: r /\ d' = mkDisk s ((dir, write n' c fs) :: r).
Proof.
  intros n n' d d' H. unfold move in H. destruct (take n (src d)) as [[c s]|]; [|discriminate].
  destruct (dst d) as [|[dir fs] r]; [discriminate|]. injection H as <-. exists c, s, dir, fs, r. auto.
Qed.
Lemma move_false : forall n n' d d', move n n' d = (d', false) -> d' = d.
Proof.
  intros n n' d d' H. unfold move in H. destruct (take n (src d)) as [[c s]|].
  - destruct (dst d) as [|[dir fs] r]; congruence.
  - congruence.
Qed.

(** ** Names with different endings are different. *)
Fixpoint lastc (d : ascii) (s : string) : ascii := match s with EmptyString => d | String c r => lastc c r end.
Lemma lastc_app : forall a d c r, lastc d (a ++ String c r) = lastc c r.
Proof. induction a as [|x a IH]; intros; [reflexivity|apply IH]. Qed.
Lemma last_ne : forall a c r b c' r', lastc c r <> lastc c' r' -> a ++ String c r <> b ++ String c' r'.
Proof.
  intros a c r b c' r' N E. apply N. rewrite <- (lastc_app a "a" c r), <- (lastc_app b "a" c' r'), E. reflexivity.
Qed.
Lemma app_inj_l : forall a x y : string, a ++ x = a ++ y -> x = y.
Proof. induction a as [|c a IH]; intros x y E; [exact E|injection E as E; exact (IH x y E)]. Qed.
Lemma bcs_ne_report : forall a b, a ++ "_BCs.csv" <> b ++ "_REPORT.csv".
Proof.
  intros a b E. replace "_BCs.csv" with ("_BCs" ++ ".csv") in E by reflexivity.
  replace "_REPORT.csv" with ("_REPORT" ++ ".csv") in E by reflexivity. rewrite <- !app_assoc_s in E.
  apply app_inj_r in E. revert E. apply last_ne. discriminate.
Qed.
Ltac endings := first [apply bcs_ne_report | intros ?EE; apply eq_sym in EE; revert EE; apply bcs_ne_report
                              | apply last_ne; discriminate].
Definition is_log (l : string) : Prop := exists a, l = a ++ ".log".

(** ** The files of one simulation *)
Definition optional (n : string) (c : option nat) : files := match c with Some c => [(n, c)] | None => [] end.
Definition log_file (log : option string) (c : nat) : files := match log with Some l => [(l, c)] | None => [] end.
(** The new folder, and what was taken out of the source. *)
Definition new_files (log : option string) (p : string) (c1 c2 : nat) (bc : option nat) (c4 : nat) : files :=
  (p ++ ".h5", c1) :: (p ++ "_REPORT.csv", c2) :: optional (p ++ "_BCs.csv") bc +++ log_file log c4.
Definition old_files (log : option string) (b : string) (c1 c2 : nat) (bc : option nat) (c4 : nat) : files :=
  (b ++ ".h5", c1) :: (b ++ "_REPORT.csv", c2) :: optional (b ++ "_BCs.csv") bc +++ log_file log c4.

Lemma move_fresh : forall n n' s dir fs r, ~ In n' (names fs) ->
  match take n s with
  | Some (c, s') => move n n' (mkDisk s ((dir, fs) :: r)) = (mkDisk s' ((dir, fs +++ [(n', c)]) :: r), true)
  | None => move n n' (mkDisk s ((dir, fs) :: r)) = (mkDisk s ((dir, fs) :: r), false)
  end.
Proof.
  intros n n' s dir fs r N. unfold move. cbn [src dst]. destruct (take n s) as [[c s']|]; [|reflexivity].
  rewrite write_new by exact N. reflexivity.
Qed.

(** Whatever happens, the moved files are among those of the simulation. *)
Lemma move_all_spec : forall log p base s dir r d' ok, (forall l, log = Some l -> is_log l) ->
  move_all log p base (mkDisk s ((dir, []) :: r)) = (d', ok) ->
  (exists s' fs, d' = mkDisk s' ((dir, fs) :: r) /\ exists l, map snd l = map snd fs /\ Permutation s (l +++ s')) /\
  (ok = true -> exists c1 c2 bc c4 s',
     d' = mkDisk s' ((dir, new_files log p c1 c2 bc c4) :: r) /\
     Permutation s (old_files log base c1 c2 bc c4 +++ s') /\
     (bc = None -> ~ In (base ++ "_BCs.csv") (names s'))) /\
  (ok = false -> ~ In (base ++ ".h5") (names s) \/ ~ In (base ++ "_REPORT.csv") (names s) \/
     exists l, log = Some l /\ ~ In l (names s)).
Proof.
  intros log p base s dir r d' ok L H. unfold move_all in H.
  pose proof (move_fresh (base ++ ".h5") (p ++ ".h5") s dir [] r (fun x => x)) as M1.
  destruct (take (base ++ ".h5") s) as [[c1 s1]|] eqn:T1; rewrite M1 in H; clear M1.
  2:{ injection H as <- <-. split; [exists s, []; split; [reflexivity|exists []; split; [reflexivity|apply Permutation_refl]]|].
      split; [discriminate|]. intros _. left. apply take_none, T1. }
  pose proof (take_perm _ _ _ _ T1) as P1. cbn [app] in H.
  assert (N2 : ~ In (p ++ "_REPORT.csv") (names [(p ++ ".h5", c1)])).
  { intros [E|[]]. cbn in E. revert E. endings. }
  pose proof (move_fresh (base ++ "_REPORT.csv") (p ++ "_REPORT.csv") s1 dir _ r N2) as M2.
  destruct (take (base ++ "_REPORT.csv") s1) as [[c2 s2]|] eqn:T2; rewrite M2 in H; clear M2.
  2:{ injection H as <- <-. split; [exists s1, [(p ++ ".h5", c1)]; split; [reflexivity|]; exists [(base ++ ".h5", c1)]; split; [reflexivity|exact P1]|].
      split; [discriminate|]. intros _. right. left. apply take_none in T2. intros I.
      apply (Permutation_in _ (Permutation_map fst P1)) in I. destruct I as [E|I]; [|exact (T2 I)].
      cbn in E. revert E. endings. }
  pose proof (take_perm _ _ _ _ T2) as P2. cbn [app] in H.
  assert (N3 : ~ In (p ++ "_BCs.csv") (names [(p ++ ".h5", c1); (p ++ "_REPORT.csv", c2)])).
  { intros [E|[E|[]]]; cbn in E; revert E; endings. }
  pose proof (move_fresh (base ++ "_BCs.csv") (p ++ "_BCs.csv") s2 dir _ r N3) as M3.
  assert (G : exists bc s3, fst (move (base ++ "_BCs.csv") (p ++ "_BCs.csv")
      (mkDisk s2 ((dir, [(p ++ ".h5", c1); (p ++ "_REPORT.csv", c2)]) :: r))) =
      mkDisk s3 ((dir, (p ++ ".h5", c1) :: (p ++ "_REPORT.csv", c2) :: optional (p ++ "_BCs.csv") bc) :: r) /\
      Permutation s2 (optional (base ++ "_BCs.csv") bc +++ s3) /\ (bc = None -> ~ In (base ++ "_BCs.csv") (names s3))).
  { destruct (take (base ++ "_BCs.csv") s2) as [[c3 s3]|] eqn:T3; rewrite M3; cbn [fst].
    - exists (Some c3), s3. split; [reflexivity|]. split; [exact (take_perm _ _ _ _ T3)|discriminate].
    - exists None, s2. split; [reflexivity|]. split; [apply Permutation_refl|]. intros _. apply take_none, T3. }
  destruct G as (bc & s3 & G & P3 & NB). clear M3.
  destruct (move (base ++ "_BCs.csv") _ _) as [d3 b3]. cbn [fst] in G. subst d3.
  assert (PP : Permutation s ((base ++ ".h5", c1) :: (base ++ "_REPORT.csv", c2) :: optional (base ++ "_BCs.csv") bc +++ s3)).
  { eapply Permutation_trans; [exact P1|]. apply perm_skip. eapply Permutation_trans; [exact P2|]. apply perm_skip, P3. }
  destruct log as [l|].
  - destruct (L l eq_refl) as [a La].
    assert (N4 : ~ In l (names ((p ++ ".h5", c1) :: (p ++ "_REPORT.csv", c2) :: optional (p ++ "_BCs.csv") bc))).
    { rewrite La. intros [E|[E|E]]; [cbn in E; revert E; endings|cbn in E; revert E; endings|].
      destruct bc; [destruct E as [E|[]]|destruct E]. cbn in E. revert E. endings. }
    pose proof (move_fresh l l s3 dir _ r N4) as M4.
    destruct (take l s3) as [[c4 s4]|] eqn:T4; rewrite M4 in H; injection H as <- <-.
    + pose proof (take_perm _ _ _ _ T4) as P4.
      assert (PA : Permutation s (old_files (Some l) base c1 c2 bc c4 +++ s4)).
      { unfold old_files. cbn [app log_file]. eapply Permutation_trans; [exact PP|]. do 2 apply perm_skip.
        rewrite <- app_assoc. cbn [app]. apply Permutation_app_head, P4. }
      assert (EF : ((p ++ ".h5", c1) :: (p ++ "_REPORT.csv", c2) :: optional (p ++ "_BCs.csv") bc) +++ [(l, c4)]
        = new_files (Some l) p c1 c2 bc c4) by reflexivity.
      cbn [app] in EF |- *. rewrite EF. split; [|split; [|discriminate]].
      * eexists _, _. split; [reflexivity|]. exists (old_files (Some l) base c1 c2 bc c4). split; [|exact PA].
        unfold old_files, new_files. cbn [map snd]. do 2 f_equal. rewrite !map_app. f_equal. destruct bc; reflexivity.
      * intros _. exists c1, c2, bc, c4, s4. split; [reflexivity|]. split; [exact PA|]. intros B I. apply (NB B).
        apply (Permutation_in _ (Permutation_sym (Permutation_map fst P4))). right. exact I.
    + split; [|split; [discriminate|]].
      * eexists _, _. split; [reflexivity|].
        exists ((base ++ ".h5", c1) :: (base ++ "_REPORT.csv", c2) :: optional (base ++ "_BCs.csv") bc).
        split; [destruct bc; reflexivity|exact PP].
      * intros _. right. right. exists l. split; [reflexivity|]. apply take_none in T4. intros I. apply T4.
        apply (Permutation_in _ (Permutation_map fst PP)) in I. rewrite La in *.
        destruct I as [E|[E|I]]; [exfalso; revert E; endings|exfalso; revert E; endings|].
        rewrite map_app in I. apply in_app_or in I. destruct I as [I|I]; [|exact I].
        destruct bc; [destruct I as [E|[]]|destruct I]. exfalso. revert E. endings.
  - injection H as <- <-.
    assert (PA : Permutation s (old_files None base c1 c2 bc 0 +++ s3)).
    { unfold old_files. cbn [app log_file]. rewrite app_nil_r. exact PP. }
    assert (EF : (p ++ ".h5", c1) :: (p ++ "_REPORT.csv", c2) :: optional (p ++ "_BCs.csv") bc
        = new_files None p c1 c2 bc 0) by (unfold new_files; cbn [log_file]; rewrite app_nil_r; reflexivity).
    rewrite EF. split; [|split; [|discriminate]].
    + eexists _, _. split; [reflexivity|]. exists (old_files None base c1 c2 bc 0). split; [|exact PA].
      unfold old_files, new_files. cbn [map snd]. do 2 f_equal. rewrite !map_app. f_equal. destruct bc; reflexivity.
    + intros _. exists c1, c2, bc, 0%nat, s3. split; [reflexivity|]. split; [exact PA|exact NB].
Qed.

(** ** The loop *)
Section Loop.
Variables (feature : string) (nd : nat) (d0 : disk).
Let reports := reports_of feature (src d0).
Let logs := logs_of feature (src d0).
Notation one := (one feature nd reports logs).
Notation all := (all feature nd reports logs).

(** The folder a simulation is put into. *)
Definition goes_to (b dir : string) : Prop :=
  exists log, log_of feature logs b = Some log /\ folder feature nd log b = Some dir.

Lemma logs_are : forall l, In l logs -> is_log l.
Proof.
  intros l I. unfold logs, logs_of in I. apply filter_In in I. destruct I as [_ M]. unfold matches in M.
  destruct (stem ".log" l) as [a|] eqn:S; [|discriminate]. apply stem_iff in S. exists a. exact S.
Qed.
Lemma log_of_in : forall b l, log_of feature logs b = Some (Some l) -> In l logs.
Proof.
  intros b l H. unfold log_of in H. destruct (second feature b) as [rest|]; [|discriminate].
  destruct (filter (contains (feature ++ rest)) logs) as [|x [|y r]] eqn:F; try discriminate.
  injection H as ->. assert (I : In l (filter (contains (feature ++ rest)) logs)) by (rewrite F; left; reflexivity).
  apply filter_In in I. exact (proj1 I).
Qed.

Lemma one_cases : forall s b s' ok, one s b = (s', ok) ->
  (ok = false /\ s' = s /\ forall dir, ~ goes_to b dir) \/
  exists log dir, log_of feature logs b = Some log /\ folder feature nd log b = Some dir /\
    ((ok = true /\ ~ In (b ++ "_REPORT.csv") reports /\ s' = mkState (dk s) (unresolved s +++ [b]) (pending s)) \/
     (ok = true /\ In (b ++ "_REPORT.csv") reports /\ In (b ++ ".h5_tmp") (names (src (dk s))) /\
      s' = mkState (dk s) (unresolved s) (pending s +++ [b])) \/
     (ok = true /\ In (b ++ "_REPORT.csv") reports /\ ~ In (b ++ ".h5_tmp") (names (src (dk s))) /\
      In dir (map fst (dst (dk s))) /\ s' = s) \/
     (In (b ++ "_REPORT.csv") reports /\ ~ In (b ++ ".h5_tmp") (names (src (dk s))) /\
      ~ In dir (map fst (dst (dk s))) /\ unresolved s' = unresolved s /\ pending s' = pending s /\
      move_all log (new_prefix nd log b) b (mkDisk (src (dk s)) ((dir, []) :: dst (dk s))) = (dk s', ok))).
Proof.
  intros s b s' ok H. unfold MPack.one in H.
  destruct (log_of feature logs b) as [log|] eqn:EL.
  2:{ injection H as <- <-. left. split; [reflexivity|]. split; [reflexivity|]. intros dir (lg & E & _). congruence. }
  destruct (folder feature nd log b) as [dir|] eqn:EF.
  2:{ injection H as <- <-. left. split; [reflexivity|]. split; [reflexivity|]. intros dir (lg & E & F). congruence. }
  right. exists log, dir. split; [reflexivity|]. split; [exact EF|].
  destruct (mem (b ++ "_REPORT.csv") reports) eqn:MR; cbn [negb] in H.
  2:{ injection H as <- <-. left. split; [reflexivity|]. split; [|reflexivity]. intros I. apply mem_iff in I. congruence. }
  apply mem_iff in MR. right.
  destruct (mem (b ++ ".h5_tmp") (names (src (dk s)))) eqn:MT.
  { injection H as <- <-. left. apply mem_iff in MT. auto. }
  assert (NT : ~ In (b ++ ".h5_tmp") (names (src (dk s)))) by (intros I; apply mem_iff in I; congruence).
  right. destruct (mem dir (map fst (dst (dk s)))) eqn:MD.
  { injection H as <- <-. left. apply mem_iff in MD. auto. }
  right. assert (ND : ~ In dir (map fst (dst (dk s)))) by (intros I; apply mem_iff in I; congruence).
  destruct (move_all _ _ _ _) as [d ok'] eqn:MA. injection H as <- <-. cbn [dk unresolved pending].
  repeat split; auto.
Qed.

Lemma one_contents : forall s b s' ok, one s b = (s', ok) -> Permutation (contents (dk s)) (contents (dk s')).
Proof.
  intros s b s' ok H. destruct (one_cases s b s' ok H) as [(_ & -> & _)|(log & dir & EL & EF & C)]; [apply Permutation_refl|].
  destruct C as [(_ & _ & ->)|[(_ & _ & _ & ->)|[(_ & _ & _ & _ & ->)|(_ & _ & _ & _ & _ & M)]]];
    try (cbn [dk]; apply Permutation_refl).
  destruct (move_all_spec _ _ _ _ _ _ _ _
    (fun l E => logs_are l (log_of_in b l (eq_trans EL (f_equal Some E)))) M) as ((s1 & fs & -> & l & El & P) & _).
  unfold contents. cbn [src dst flat_map snd].
  eapply Permutation_trans; [apply Permutation_app_tail, (Permutation_map snd), P|].
  rewrite map_app, El. rewrite app_assoc. apply Permutation_app_tail, Permutation_app_comm.
Qed.
Lemma all_contents : forall l s s' ok, all s l = (s', ok) -> Permutation (contents (dk s)) (contents (dk s')).
Proof.
  induction l as [|b l IH]; intros s s' ok H; cbn [MPack.all] in H; [injection H as <- <-; apply Permutation_refl|].
  destruct (one s b) as [s1 o1] eqn:E1. pose proof (one_contents _ _ _ _ E1) as P1.
  destruct o1; [|injection H as <- <-; exact P1]. eapply Permutation_trans; [exact P1|exact (IH _ _ _ H)].
Qed.

(** *** Invariant *)
(** [done]: the simulations looked at so far. *)
Definition log_folder (l : string) (dir : string) : Prop :=
  exists rest, second feature (first "." l) = Some rest /\ dir = feature ++ rest.
Record inv (done : list string) (s : state) : Prop := {
  inv_nodup : NoDup (names (src (dk s)));
  inv_sub : forall n c, In (n, c) (src (dk s)) -> In (n, c) (src d0);
  inv_gone : forall n, In n (names (src d0)) -> In n (names (src (dk s))) \/
    (exists b, In b done /\ (n = b ++ ".h5" \/ n = b ++ "_REPORT.csv" \/ n = b ++ "_BCs.csv")) \/
    (In n logs /\ exists dir, log_folder n dir /\ In dir (map fst (dst (dk s))));
  inv_old : exists new, dst (dk s) = new +++ dst d0;
  inv_new : forall dir fs, In (dir, fs) (dst (dk s)) -> In (dir, fs) (dst d0) \/
    exists b log c1 c2 bc c4, In b done /\ log_of feature logs b = Some log /\ folder feature nd log b = Some dir /\
      In (b ++ "_REPORT.csv") reports /\ ~ In (b ++ ".h5_tmp") (names (src d0)) /\
      fs = new_files log (new_prefix nd log b) c1 c2 bc c4 /\
      (forall f, In f (old_files log b c1 c2 bc c4) -> In f (src d0)) /\
      (bc = None -> ~ In (b ++ "_BCs.csv") (names (src d0)));
  inv_done : forall b dir, In b done -> goes_to b dir -> In (b ++ "_REPORT.csv") reports ->
    ~ In (b ++ ".h5_tmp") (names (src d0)) -> In dir (map fst (dst (dk s)));
  inv_moved : forall b, In (b ++ ".h5") (names (src d0)) -> ~ In (b ++ ".h5") (names (src (dk s))) ->
    exists dir, goes_to b dir /\ In dir (map fst (dst (dk s))) /\ ~ In dir (map fst (dst d0));
  inv_single : forall b b' dir, In (b ++ ".h5") (names (src d0)) -> In (b' ++ ".h5") (names (src d0)) ->
    ~ In (b ++ ".h5") (names (src (dk s))) -> ~ In (b' ++ ".h5") (names (src (dk s))) ->
    goes_to b dir -> goes_to b' dir -> b = b'
}.

Lemma nodup_app_r : forall (l r : list string), NoDup (l +++ r) -> NoDup r.
Proof. induction l as [|x l IH]; intros r H; [exact H|]. inversion H. apply IH. assumption. Qed.
Lemma in_names : forall n (l : files), In n (names l) <-> exists c, In (n, c) l.
Proof.
  intros n l. unfold names. rewrite in_map_iff. split.
  - intros ([m c] & E & I). cbn in E. subst. eauto.
  - intros [c I]. exists (n, c). auto.
Qed.
Lemma inv_sub_names : forall done s, inv done s -> forall n, In n (names (src (dk s))) -> In n (names (src d0)).
Proof. intros done s I n H. apply in_names in H. destruct H as [c H]. apply in_names. exists c. exact (inv_sub done s I n c H). Qed.

(** Steps that leave the disk. *)
Lemma inv_same : forall done s b u p, inv done s ->
  (forall dir, goes_to b dir -> In (b ++ "_REPORT.csv") reports -> ~ In (b ++ ".h5_tmp") (names (src d0)) ->
     In dir (map fst (dst (dk s)))) ->
  inv (b :: done) (mkState (dk s) u p).
Proof.
  intros done s b u p I D. constructor; cbn [dk].
  - exact (inv_nodup _ _ I).
  - exact (inv_sub _ _ I).
  - intros n N. destruct (inv_gone _ _ I n N) as [G|[(b' & G & E)|G]]; auto.
    right. left. exists b'. split; [right; exact G|exact E].
  - exact (inv_old _ _ I).
  - intros dir fs F. destruct (inv_new _ _ I dir fs F) as [G|(b' & log & c1 & c2 & bc & c4 & G & R)]; [auto|].
    right. exists b', log, c1, c2, bc, c4. split; [right; exact G|exact R].
  - intros b' dir [<-|B] GT R T; [exact (D dir GT R T)|exact (inv_done _ _ I b' dir B GT R T)].
  - exact (inv_moved _ _ I).
  - exact (inv_single _ _ I).
Qed.

Lemma goes_to_unique : forall b dir dir', goes_to b dir -> goes_to b dir' -> dir = dir'.
Proof. intros b dir dir' (l & E & F) (l' & E' & F'). congruence. Qed.

Lemma inv_step : forall done s b s', inv done s -> ~ In b done -> one s b = (s', true) -> inv (b :: done) s'.
Proof.
  intros done s b s' I ND H. destruct (one_cases s b s' true H) as [(E & _)|(log & dir & EL & EF & C)]; [discriminate|].
  assert (GT : goes_to b dir) by (exists log; auto).
  destruct C as [(_ & NR & ->)|[(_ & R & T & ->)|[(_ & R & T & D & ->)|(R & T & D & EU & EP & M)]]].
  - apply inv_same; [exact I|]. intros dir' _ R. contradiction.
  - apply inv_same; [exact I|]. intros dir' _ _ NT. destruct NT. exact (inv_sub_names _ _ I _ T).
  - destruct s as [dk0 u p]. apply (inv_same done (mkState dk0 u p) b u p I). intros dir' G' _ _.
    rewrite <- (goes_to_unique b dir dir' GT G'). exact D.
  - destruct (move_all_spec _ _ _ _ _ _ _ _
      (fun l E => logs_are l (log_of_in b l (eq_trans EL (f_equal Some E)))) M) as (_ & K & _).
    destruct (K eq_refl) as (c1 & c2 & bc & c4 & s1 & ED & P & NB). clear K.
    assert (INC : forall f, In f s1 -> In f (src (dk s))).
    { intros f F. apply (Permutation_in _ (Permutation_sym P)). apply in_or_app. right. exact F. }
    assert (INCN : forall n, In n (names s1) -> In n (names (src (dk s)))).
    { intros n N. apply in_names in N. destruct N as [c N]. apply in_names. exists c. apply INC, N. }
    assert (GONE : forall b', ~ In (b' ++ ".h5") (names s1) -> ~ In (b' ++ ".h5") (names (src (dk s))) \/ b' = b).
    { intros b' G. destruct (string_dec b' b) as [->|NE]; [right; reflexivity|left]. intros X. apply G.
      apply (Permutation_in _ (Permutation_map fst P)) in X. rewrite map_app in X. apply in_app_or in X.
      destruct X as [X|X]; [exfalso|exact X]. destruct X as [X|[X|X]].
      - cbn in X. apply app_inj_r in X. congruence.
      - cbn in X. revert X. endings.
      - rewrite map_app in X. apply in_app_or in X. destruct X as [X|X].
        + destruct bc; [destruct X as [X|[]]|destruct X]. cbn in X. revert X. endings.
        + destruct log as [l|]; [destruct X as [X|[]]|destruct X]. cbn in X.
          destruct (logs_are _ (log_of_in b l EL)) as [a E]. rewrite E in X. revert X. endings. }
    constructor; rewrite ED; cbn [src dst].
    + pose proof (Permutation_NoDup (Permutation_map fst P) (inv_nodup _ _ I)) as NP.
      rewrite map_app in NP. exact (nodup_app_r _ _ NP).
    + intros n c N. exact (inv_sub _ _ I n c (INC _ N)).
    + intros n N. destruct (inv_gone _ _ I n N) as [G|[(b' & G & E)|(G & dir' & LF & G')]].
      * apply (Permutation_in _ (Permutation_map fst P)) in G. rewrite map_app in G.
        apply in_app_or in G. destruct G as [G|G]; [|left; exact G]. right.
        unfold old_files in G. cbn [map fst] in G. destruct G as [G|[G|G]].
        -- left. exists b. split; [left; reflexivity|left; symmetry; exact G].
        -- left. exists b. split; [left; reflexivity|right; left; symmetry; exact G].
        -- rewrite map_app in G. apply in_app_or in G. destruct G as [G|G].
           ++ destruct bc; [destruct G as [G|[]]|destruct G]. left. exists b.
              split; [left; reflexivity|right; right; symmetry; exact G].
           ++ destruct log as [l|]; [destruct G as [G|[]]|destruct G]. cbn in G. subst n. right.
              split; [exact (log_of_in b l EL)|]. exists dir. split; [|left; reflexivity].
              unfold folder in EF. cbn [new_prefix] in EF. unfold log_folder.
              destruct (second feature (first "." l)) as [rest|]; [|discriminate]. exists rest.
              split; [reflexivity|congruence].
      * right. left. exists b'. split; [right; exact G|exact E].
      * right. right. split; [exact G|]. exists dir'. split; [exact LF|]. right. exact G'.
    + destruct (inv_old _ _ I) as [new E]. exists ((dir, new_files log (new_prefix nd log b) c1 c2 bc c4) :: new).
      rewrite E. reflexivity.
    + intros dir' fs [F|F].
      * injection F as <- <-. right. exists b, log, c1, c2, bc, c4. split; [left; reflexivity|].
        split; [exact EL|]. split; [exact EF|]. split; [exact R|].
        split; [|split; [reflexivity|split]].
        { intros X. destruct (inv_gone _ _ I _ X) as [G|[(b' & _ & E)|(G & _)]]; [exact (T G)| |].
          - destruct E as [E|[E|E]]; revert E; endings.
          - destruct (logs_are _ G) as [a E]. revert E. endings. }
        2:{ intros B X. subst bc. destruct (inv_gone _ _ I _ X) as [G|[(b' & G & E)|(G & _)]].
          - apply (Permutation_in _ (Permutation_map fst P)) in G. rewrite map_app in G.
            apply in_app_or in G. destruct G as [G|G]; [|exact (NB eq_refl G)].
            destruct G as [G|[G|G]]; [revert G; endings|revert G; endings|].
            destruct log as [l|]; [|destruct G]. destruct G as [G|[]]. cbn in G.
            destruct (logs_are _ (log_of_in b l EL)) as [a E]. rewrite E in G. revert G. endings.
          - destruct E as [E|[E|E]]; [revert E; endings|revert E; endings|].
            apply app_inj_r in E. subst b'. exact (ND G).
          - destruct (logs_are _ G) as [a E]. revert E. endings. }
        intros [n c] F. apply (inv_sub _ _ I). apply (Permutation_in _ (Permutation_sym P)). apply in_or_app. left. exact F.
      * destruct (inv_new _ _ I dir' fs F) as [G|(b' & log' & c1' & c2' & bc' & c4' & G & L' & F' & R' & T' & E' & O' & N')]; [auto|].
        right. exists b', log', c1', c2', bc', c4'. split; [right; exact G|].
        repeat (split; [assumption|]). exact N'.
    + intros b' dir' [<-|B] G' R' T'.
      * rewrite <- (goes_to_unique b dir dir' GT G'). left. reflexivity.
      * right. exact (inv_done _ _ I b' dir' B G' R' T').
    + intros b' N G. destruct (GONE b' G) as [G'| ->].
      * destruct (inv_moved _ _ I b' N G') as (dir' & A & B & B'). exists dir'. split; [exact A|]. split; [right; exact B|exact B'].
      * exists dir. split; [exact GT|]. split; [left; reflexivity|]. intros X. apply D.
        destruct (inv_old _ _ I) as [new E]. rewrite E, map_app. apply in_or_app. right. exact X.
    + assert (NEW : forall b', In (b' ++ ".h5") (names (src d0)) -> ~ In (b' ++ ".h5") (names (src (dk s))) ->
        ~ goes_to b' dir).
      { intros b' N G X. destruct (inv_moved _ _ I b' N G) as (dir' & A & B & _). apply D.
        rewrite <- (goes_to_unique b' dir' dir A X). exact B. }
      intros b1 b2 dir' N1 N2 G1 G2 A1 A2. destruct (GONE b1 G1) as [H1| ->], (GONE b2 G2) as [H2| ->].
      * exact (inv_single _ _ I b1 b2 dir' N1 N2 H1 H2 A1 A2).
      * destruct (NEW b1 N1 H1). rewrite (goes_to_unique b dir dir' GT A2). exact A1.
      * destruct (NEW b2 N2 H2). rewrite (goes_to_unique b dir dir' GT A1). exact A2.
      * reflexivity.
Qed.

(** The packaging of one simulation only ends with an exception if no folder name can be made. *)
Lemma one_succeeds : forall done s b s' ok, inv done s -> one s b = (s', ok) -> ~ In b done ->
  In (b ++ ".h5") (names (src d0)) -> (exists dir, goes_to b dir) -> ok = true.
Proof.
  intros done s b s' ok I H NB H5 [dr GT]. destruct ok; [reflexivity|]. exfalso.
  destruct (one_cases s b s' false H) as [(_ & _ & N)|(log & dir & EL & EF & C)]; [exact (N dr GT)|].
  destruct C as [(E & _)|[(E & _)|[(E & _)|(R & T & D & EU & EP & M)]]]; try discriminate.
  destruct (move_all_spec _ _ _ _ _ _ _ _
      (fun l E => logs_are l (log_of_in b l (eq_trans EL (f_equal Some E)))) M) as (_ & _ & K).
  destruct (K eq_refl) as [X|[X|(l & -> & X)]]; clear K.
  - destruct (inv_gone _ _ I _ H5) as [G|[(b' & G & E)|(G & _)]]; [exact (X G)| |].
    + destruct E as [E|[E|E]]; [apply app_inj_r in E; subst; contradiction|revert E; endings|revert E; endings].
    + destruct (logs_are _ G) as [a E]. revert E. endings.
  - assert (RN : In (b ++ "_REPORT.csv") (names (src d0))) by (apply filter_In in R; exact (proj1 R)).
    destruct (inv_gone _ _ I _ RN) as [G|[(b' & G & E)|(G & _)]]; [exact (X G)| |].
    + destruct E as [E|[E|E]]; [revert E; endings|apply app_inj_r in E; subst; contradiction|revert E; endings].
    + destruct (logs_are _ G) as [a E]. revert E. endings.
  - pose proof (log_of_in b l EL) as LI.
    assert (LN : In l (names (src d0))) by (apply filter_In in LI; exact (proj1 LI)).
    destruct (inv_gone _ _ I _ LN) as [G|[(b' & G & E)|(_ & dir' & (rest & SR & ->) & G)]]; [exact (X G)| |].
    + destruct (logs_are _ LI) as [a Ea]. rewrite Ea in E. destruct E as [E|[E|E]]; revert E; endings.
    + unfold folder in EF. cbn [new_prefix] in EF. rewrite SR in EF. injection EF as <-. exact (D G).
Qed.

Lemma all_inv : forall l done s s', inv done s -> NoDup l -> (forall b, In b l -> ~ In b done) ->
  all s l = (s', true) -> inv (rev l +++ done) s'.
Proof.
  induction l as [|b l IH]; intros done s s' I ND DJ H; cbn [MPack.all rev app] in *; [injection H as <-; exact I|].
  destruct (one s b) as [s1 [|]] eqn:E1; [|discriminate]. rewrite <- app_assoc. cbn [app].
  inversion ND as [|? ? NI ND']; subst.
  apply (IH (b :: done) s1 s' (inv_step _ _ _ _ I (DJ b (or_introl eq_refl)) E1) ND'); [|exact H].
  intros b' B [<-|X]; [exact (NI B)|exact (DJ b' (or_intror B) X)].
Qed.
Lemma all_succeeds : forall l done s, inv done s -> NoDup l -> (forall b, In b l -> ~ In b done) ->
  (forall b, In b l -> In (b ++ ".h5") (names (src d0)) /\ exists dir, goes_to b dir) -> exists s', all s l = (s', true).
Proof.
  induction l as [|b l IH]; intros done s I ND DJ H; cbn [MPack.all]; [eauto|]. inversion ND as [|? ? NI ND']; subst.
  destruct (one s b) as [s1 ok] eqn:E1. destruct (H b (or_introl eq_refl)) as [H5 G].
  assert (ok = true) by exact (one_succeeds _ _ _ _ _ I E1 (DJ b (or_introl eq_refl)) H5 G). subst ok.
  apply (IH (b :: done) s1 (inv_step _ _ _ _ I (DJ b (or_introl eq_refl)) E1) ND'); [|intros; apply H; right; assumption].
  intros b' B [<-|X]; [exact (NI B)|exact (DJ b' (or_intror B) X)].
Qed.
Lemma all_fails : forall l s b, In b l -> (forall dir, ~ goes_to b dir) -> snd (all s l) = false.
Proof.
  induction l as [|x l IH]; intros s b B N; [destruct B|]. cbn [MPack.all].
  destruct (one s x) as [s1 ok] eqn:E1. destruct ok; [|reflexivity]. destruct B as [<-|B].
  - destruct (one_cases s x s1 true E1) as [(E & _)|(log & dir & EL & EF & _)]; [discriminate|].
    destruct (N dir). exists log. auto.
  - exact (IH s1 b B N).
Qed.
Lemma inv_start : NoDup (names (src d0)) -> inv [] (mkState d0 [] []).
Proof.
  intros ND. constructor; cbn [dk]; auto.
  - exists []. reflexivity.
  - intros b dir [].
  - intros b A B. contradiction.
  - intros b b' dir A _ B. contradiction.
Qed.

(** The two lists. *)
Lemma all_unresolved : forall l s s', all s l = (s', true) ->
  unresolved s' = unresolved s +++ filter (fun b => negb (mem (b ++ "_REPORT.csv") reports)) l.
Proof.
  induction l as [|b l IH]; intros s s' H; cbn [MPack.all filter] in *; [injection H as <-; rewrite app_nil_r; reflexivity|].
  destruct (one s b) as [s1 [|]] eqn:E1; [|discriminate]. rewrite (IH _ _ H).
  destruct (one_cases s b s1 true E1) as [(E & _)|(log & dir & EL & EF & C)]; [discriminate|].
  destruct C as [(_ & NR & ->)|C].
  - cbn [unresolved]. destruct (mem (b ++ "_REPORT.csv") reports) eqn:M; [apply mem_iff in M; contradiction|].
    cbn [negb]. rewrite <- app_assoc. reflexivity.
  - assert (R : In (b ++ "_REPORT.csv") reports /\ unresolved s1 = unresolved s).
    { destruct C as [(_ & R & _ & ->)|[(_ & R & _ & _ & ->)|(R & _ & _ & U & _)]]; auto. }
    destruct R as [R ->]. apply mem_iff in R. rewrite R. reflexivity.
Qed.
Lemma all_pending : forall l done s s', inv done s -> NoDup l -> (forall b, In b l -> ~ In b done) ->
  all s l = (s', true) ->
  pending s' = pending s +++ filter (fun b => mem (b ++ "_REPORT.csv") reports && mem (b ++ ".h5_tmp") (names (src d0)))%bool l.
Proof.
  induction l as [|b l IH]; intros done s s' I ND DJ H; cbn [MPack.all filter] in *;
    [injection H as <-; rewrite app_nil_r; reflexivity|].
  destruct (one s b) as [s1 [|]] eqn:E1; [|discriminate]. inversion ND as [|? ? NI ND']; subst.
  rewrite (IH (b :: done) s1 s' (inv_step _ _ _ _ I (DJ b (or_introl eq_refl)) E1) ND');
    [|intros b' B [<-|X]; [exact (NI B)|exact (DJ b' (or_intror B) X)]|exact H].
  assert (TMP : In (b ++ ".h5_tmp") (names (src d0)) -> In (b ++ ".h5_tmp") (names (src (dk s)))).
  { intros X. destruct (inv_gone _ _ I _ X) as [G|[(b' & _ & E)|(G & _)]]; [exact G|exfalso|exfalso].
    - destruct E as [E|[E|E]]; revert E; endings.
    - destruct (logs_are _ G) as [a E]. revert E. endings. }
  destruct (one_cases s b s1 true E1) as [(E & _)|(log & dir & EL & EF & C)]; [discriminate|].
  destruct C as [(_ & NR & ->)|[(_ & R & T & ->)|C]].
  - cbn [pending]. destruct (mem (b ++ "_REPORT.csv") reports) eqn:M; [apply mem_iff in M; contradiction|]. reflexivity.
  - cbn [pending]. apply mem_iff in R. rewrite R. rewrite (proj2 (mem_iff _ _) (inv_sub_names _ _ I _ T)).
    cbn [andb]. rewrite <- app_assoc. reflexivity.
  - assert (T : ~ In (b ++ ".h5_tmp") (names (src d0)) /\ pending s1 = pending s).
    { destruct C as [(_ & _ & T & _ & ->)|(_ & T & _ & _ & P & _)]; split; auto. }
    destruct T as [T ->]. destruct (mem (b ++ ".h5_tmp") (names (src d0))) eqn:M; [apply mem_iff in M; contradiction|].
    rewrite andb_false_r. reflexivity.
Qed.
End Loop.

(** ** C166: theorems *)

(** Bases of result files are different if the names are. *)
Lemma in_bases : forall feature l b, In b (bases feature l) <-> In (b ++ ".h5") (names l) /\ contains feature b = true.
Proof.
  intros feature l b. unfold bases. rewrite in_flat_map. split.
  - intros (n & I & B). destruct (stem ".h5" n) as [b'|] eqn:S; [|destruct B].
    destruct (contains feature b') eqn:C; [|destruct B]. destruct B as [<-|[]]. apply stem_iff in S. subst n. auto.
  - intros [I C]. exists (b ++ ".h5"). split; [exact I|].
    rewrite (proj2 (stem_iff ".h5" (b ++ ".h5") b) eq_refl), C. left. reflexivity.
Qed.
Lemma bases_nodup : forall feature l, NoDup (names l) -> NoDup (bases feature l).
Proof.
  intros feature l. unfold bases. induction (names l) as [|n r IH]; intros ND; cbn [flat_map]; [constructor|].
  inversion ND as [|? ? NI ND']; subst.
  destruct (stem ".h5" n) as [b|] eqn:S; [|exact (IH ND')].
  destruct (contains feature b); [|exact (IH ND')]. cbn [app]. constructor; [|exact (IH ND')].
  intros I. apply in_flat_map in I. destruct I as (m & M & B). destruct (stem ".h5" m) as [b'|] eqn:S'; [|destruct B].
  destruct (contains feature b'); [|destruct B]. destruct B as [->|[]].
  apply stem_iff in S, S'. subst. contradiction.
Qed.
Lemma in_reports : forall feature l b, contains feature b = true ->
  (In (b ++ "_REPORT.csv") (reports_of feature l) <-> In (b ++ "_REPORT.csv") (names l)).
Proof.
  intros feature l b C. unfold reports_of. rewrite filter_In. split; [intros [I _]; exact I|]. intros I. split; [exact I|].
  unfold matches. rewrite (proj2 (stem_iff "_REPORT.csv" _ b) eq_refl). exact C.
Qed.

(** Nothing is lost or overwritten, even if the packaging is ended by an exception. *)
Theorem C166_nothing_lost : forall feature nd d s ok, package feature nd d = (s, ok) ->
  Permutation (contents d) (contents (dk s)).
Proof. intros feature nd d s ok H. exact (all_contents feature nd d _ _ _ _ H). Qed.

Lemma package_inv : forall feature nd d s, NoDup (names (src d)) -> package feature nd d = (s, true) ->
  inv feature nd d (rev (bases feature (src d))) s.
Proof.
  intros feature nd d s ND H. unfold package in H.
  pose proof (all_inv feature nd d _ _ _ _ (inv_start feature nd d ND) (bases_nodup feature _ ND)
    (fun b _ F => F) H) as I.
  rewrite app_nil_r in I. exact I.
Qed.
Lemma nodup_content : forall (l : files) n c c', NoDup (names l) -> In (n, c) l -> In (n, c') l -> c = c'.
Proof.
  induction l as [|[m x] l IH]; intros n c c' ND A B; [destruct A|]. inversion ND as [|? ? NI ND']; subst.
  destruct A as [A|A], B as [B|B].
  - congruence.
  - injection A as -> ->. destruct NI. apply in_names. eauto.
  - injection B as -> ->. destruct NI. apply in_names. eauto.
  - exact (IH n c c' ND' A B).
Qed.

(** Folders that exist stay as they are; each new folder holds all files of one simulation that has ended: results and
    report, the boundary conditions if there are any, and the log found for it, under one new name. *)
Theorem C166_folders : forall feature nd d s, NoDup (names (src d)) -> package feature nd d = (s, true) ->
  (exists new, dst (dk s) = new +++ dst d) /\
  forall dir fs, In (dir, fs) (dst (dk s)) -> In (dir, fs) (dst d) \/
    exists b log, finished (src d) b /\ contains feature b = true /\
      log_of feature (logs_of feature (src d)) b = Some log /\ folder feature nd log b = Some dir /\
      let p := new_prefix nd log b in
      forall n c, In (n, c) fs <->
        (n = p ++ ".h5" /\ In (b ++ ".h5", c) (src d)) \/ (n = p ++ "_REPORT.csv" /\ In (b ++ "_REPORT.csv", c) (src d)) \/
        (n = p ++ "_BCs.csv" /\ In (b ++ "_BCs.csv", c) (src d)) \/ (log = Some n /\ In (n, c) (src d)).
Proof.
  intros feature nd d s ND H. pose proof (package_inv feature nd d s ND H) as I.
  split; [exact (inv_old _ _ _ _ _ I)|].
  intros dir fs F. destruct (inv_new _ _ _ _ _ I dir fs F)
    as [G|(b & log & c1 & c2 & bc & c4 & B & EL & EF & R & T & -> & O & NB)]; [left; exact G|right].
  apply in_rev, in_bases in B. destruct B as [B C]. exists b, log.
  split; [split; [exact B|split; [apply (in_reports feature _ b C), R|exact T]]|].
  split; [exact C|]. split; [exact EL|]. split; [exact EF|]. cbv zeta. set (p := new_prefix nd log b). clearbody p.
  assert (O1 : In (b ++ ".h5", c1) (src d)) by (apply O; left; reflexivity).
  assert (O2 : In (b ++ "_REPORT.csv", c2) (src d)) by (apply O; right; left; reflexivity).
  intros n c. unfold new_files. cbn [In]. rewrite in_app_iff. split.
  - intros [E|[E|[E|E]]].
    + injection E as <- <-. auto.
    + injection E as <- <-. auto.
    + destruct bc as [c3|]; [destruct E as [E|[]]|destruct E]. injection E as <- <-.
      right. right. left. split; [reflexivity|]. apply O. right. right. left. reflexivity.
    + destruct log as [l|]; [destruct E as [E|[]]|destruct E]. injection E as <- <-.
      do 3 right. split; [reflexivity|]. apply O. right. right. apply in_or_app. right. left. reflexivity.
  - intros [[-> E]|[[-> E]|[[-> E]|[-> E]]]].
    + left. f_equal. exact (nodup_content _ _ _ _ ND O1 E).
    + right. left. f_equal. exact (nodup_content _ _ _ _ ND O2 E).
    + right. right. left. destruct bc as [c3|].
      * left. f_equal. refine (nodup_content _ _ _ _ ND _ E). apply O. right. right. left. reflexivity.
      * exfalso. apply (NB eq_refl). apply in_names. eauto.
    + do 3 right. left. f_equal. refine (nodup_content _ _ _ _ ND _ E). apply O. right. right. apply in_or_app. right.
      left. reflexivity.
Qed.

(** Every simulation that has ended is packaged if its folder does not exist and no other one claims it. *)
Theorem C166_all_partial : forall feature nd d s b log dir, NoDup (names (src d)) -> package feature nd d = (s, true) ->
  finished (src d) b -> contains feature b = true ->
  log_of feature (logs_of feature (src d)) b = Some log -> folder feature nd log b = Some dir ->
  ~ In dir (map fst (dst d)) ->
  (forall b' log', finished (src d) b' -> contains feature b' = true ->
     log_of feature (logs_of feature (src d)) b' = Some log' -> folder feature nd log' b' = Some dir -> b' = b) ->
  exists fs c, In (dir, fs) (dst (dk s)) /\ In (b ++ ".h5", c) (src d) /\ In (new_prefix nd log b ++ ".h5", c) fs.
Proof.
  intros feature nd d s b log dir ND H (F1 & F2 & F3) C EL EF NO U.
  pose proof (package_inv feature nd d s ND H) as I.
  assert (D : In dir (map fst (dst (dk s)))).
  { apply (inv_done _ _ _ _ _ I b dir).
    - apply in_rev. rewrite rev_involutive. apply in_bases. auto.
    - exists log. auto.
    - apply in_reports; assumption.
    - exact F3. }
  apply in_map_iff in D. destruct D as ([dir' fs] & E & D). cbn in E. subst dir'.
  destruct (proj2 (C166_folders feature nd d s ND H) dir fs D) as [G|(b' & log' & FI & C' & EL' & EF' & K)].
  - destruct NO. apply in_map_iff. exists (dir, fs). auto.
  - pose proof (U b' log' FI C' EL' EF') as ->. rewrite EL in EL'. injection EL' as <-.
    apply in_names in F1. destruct F1 as [c F1]. exists fs, c. split; [exact D|]. split; [exact F1|].
    apply K. left. auto.
Qed.

(** The packaging goes through if and only if a folder name can be made for all result files found. *)
Theorem C166_ends : forall feature nd d, NoDup (names (src d)) ->
  (snd (package feature nd d) = true <->
   forall b, In (b ++ ".h5") (names (src d)) -> contains feature b = true ->
     exists log dir, log_of feature (logs_of feature (src d)) b = Some log /\ folder feature nd log b = Some dir).
Proof.
  intros feature nd d ND. unfold package. split.
  - intros H b B C.
    destruct (log_of feature (logs_of feature (src d)) b) as [log|] eqn:EL.
    + destruct (folder feature nd log b) as [dir|] eqn:EF; [eauto|]. exfalso.
      rewrite (all_fails feature nd d _ (mkState d [] []) b) in H; [discriminate|apply in_bases; auto|].
      intros dir (lg & E & F). unfold goes_to in *. congruence.
    + exfalso. rewrite (all_fails feature nd d _ (mkState d [] []) b) in H; [discriminate|apply in_bases; auto|].
      intros dir (lg & E & F). congruence.
  - intros H. destruct (all_succeeds feature nd d (bases feature (src d)) [] (mkState d [] []) (inv_start feature nd d ND)
      (bases_nodup feature _ ND)) as [s' E].
    + intros b _ [].
    + intros b B. apply in_bases in B. destruct B as [B C]. split; [exact B|].
      destruct (H b B C) as (log & dir & EL & EF). exists dir, log. auto.
    + rewrite E. reflexivity.
Qed.

(** *** Findings *)
Definition named (d : disk) (feature : string) (nd : nat) (b dir : string) : Prop :=
  exists log, log_of feature (logs_of feature (src d)) b = Some log /\ folder feature nd log b = Some dir.

(** What is reported: 'unresolved' are the results without report; 'packaged' are all others, and if a simulation is
    found pending its path is returned instead of a list, and the length of the path is reported as the number. *)
Theorem C166_reported_refuted : forall feature nd d s, NoDup (names (src d)) -> package feature nd d = (s, true) ->
  let no_report b := negb (mem (b ++ "_REPORT.csv") (names (src d))) in
  unresolved s = filter no_report (bases feature (src d)) /\
  fst (fst (printed feature d s)) = List.length (filter (fun b => negb (no_report b)) (bases feature (src d))) /\
  forall b, In b (bases feature (src d)) -> no_report b = false -> In (b ++ ".h5_tmp") (names (src d)) ->
    exists b', pending_result feature s = inl b' /\ snd (printed feature d s) = String.length b'.
Proof.
  intros feature nd d s ND H no_report. unfold package in H.
  assert (RB : forall b, In b (bases feature (src d)) ->
    mem (b ++ "_REPORT.csv") (reports_of feature (src d)) = mem (b ++ "_REPORT.csv") (names (src d))).
  { intros b B. apply in_bases in B. destruct B as [_ C]. pose proof (in_reports feature (src d) b C) as E.
    destruct (mem (b ++ "_REPORT.csv") (reports_of feature (src d))) eqn:A,
             (mem (b ++ "_REPORT.csv") (names (src d))) eqn:A'; try reflexivity; exfalso.
    - apply mem_iff in A. apply E, mem_iff in A. congruence.
    - apply mem_iff in A'. apply E, mem_iff in A'. congruence. }
  assert (U : unresolved s = filter no_report (bases feature (src d))).
  { rewrite (all_unresolved feature nd d _ _ _ H). cbn [unresolved app]. unfold no_report. clear H.
    induction (bases feature (src d)) as [|b l IH]; [reflexivity|]. cbn [filter].
    rewrite (RB b (or_introl eq_refl)), IH; [reflexivity|]. intros b' B. apply RB. right. exact B. }
  split; [exact U|]. split.
  - unfold printed. cbn [fst]. rewrite U. generalize (bases feature (src d)). intros l.
    assert (G : (List.length (filter no_report l) + List.length (filter (fun b => negb (no_report b)) l) = List.length l)%nat).
    { induction l as [|b l IH]; [reflexivity|]. cbn [filter]. destruct (no_report b); cbn [negb List.length]; lia. }
    lia.
  - intros b B R T.
    pose proof (all_pending feature nd d _ _ _ _ (inv_start feature nd d ND) (bases_nodup feature _ ND)
      (fun b _ F => F) H) as P. cbn [pending app] in P.
    unfold printed, pending_result. destruct (pending s) as [|b' r].
    + exfalso. assert (X : In b (@nil string)); [|destruct X]. rewrite P. apply filter_In. split; [exact B|].
      rewrite (RB b B). unfold no_report in R. apply negb_false_iff in R. rewrite R.
      rewrite (proj2 (mem_iff _ _) T). reflexivity.
    + exists b'. split; reflexivity.
Qed.

(** Results whose folder exists already stay where they are ... *)
Theorem C166_exists_refuted : forall feature nd d s b dir, NoDup (names (src d)) -> package feature nd d = (s, true) ->
  In (b ++ ".h5") (names (src d)) -> named d feature nd b dir -> In dir (map fst (dst d)) ->
  In (b ++ ".h5") (names (src (dk s))).
Proof.
  intros feature nd d s b dir ND H B G D. pose proof (package_inv feature nd d s ND H) as I.
  destruct (in_dec string_dec (b ++ ".h5") (names (src (dk s)))) as [Y|N]; [exact Y|exfalso].
  destruct (inv_moved _ _ _ _ _ I b B N) as (dir' & G' & _ & D').
  rewrite (goes_to_unique feature nd d b dir' dir G' G) in D'. exact (D' D).
Qed.
(** ... and of several results with the same folder all but one do. *)
Theorem C166_shared_refuted : forall feature nd d s b b' dir, NoDup (names (src d)) ->
  package feature nd d = (s, true) -> b <> b' ->
  In (b ++ ".h5") (names (src d)) -> In (b' ++ ".h5") (names (src d)) ->
  named d feature nd b dir -> named d feature nd b' dir ->
  In (b ++ ".h5") (names (src (dk s))) \/ In (b' ++ ".h5") (names (src (dk s))).
Proof.
  intros feature nd d s b b' dir ND H NE B B' G G'. pose proof (package_inv feature nd d s ND H) as I.
  destruct (in_dec string_dec (b ++ ".h5") (names (src (dk s)))) as [Y|N]; [left; exact Y|].
  destruct (in_dec string_dec (b' ++ ".h5") (names (src (dk s)))) as [Y|N']; [right; exact Y|].
  destruct NE. exact (inv_single _ _ _ _ _ I b b' dir B B' N N' G G').
Qed.

(** Two simulations, the first without log: it takes the log and the folder of the second one, whose number starts with
    its own; both are reported as packaged. *)
Definition ex_src : files :=
  [("2020-03-17T15-29-11_flexi_LHS1.h5", 1); ("2020-03-17T15-29-11_flexi_LHS1_REPORT.csv", 2);
   ("2020-03-17T15-29-12_flexi_LHS12.h5", 3); ("2020-03-17T15-29-12_flexi_LHS12_REPORT.csv", 4);
   ("2020-03-17T15-29-12_flexi_LHS12_BCs.csv", 5); ("flexi_LHS12.log", 6)]%nat.
Theorem C166_log_refuted : exists d s, NoDup (names (src d)) /\ package "LHS" 20 d = (s, true) /\
  (forall b, In b ["2020-03-17T15-29-11_flexi_LHS1"; "2020-03-17T15-29-12_flexi_LHS12"] -> finished (src d) b) /\
  dst (dk s) = [("LHS12", [("flexi_LHS12.h5", 1); ("flexi_LHS12_REPORT.csv", 2); ("flexi_LHS12.log", 6)])]%nat /\
  In ("2020-03-17T15-29-12_flexi_LHS12.h5", 3)%nat (src (dk s)) /\
  printed "LHS" d s = (2, 0, 0)%nat.
Proof.
  exists (mkDisk ex_src []). eexists. split.
  { unfold ex_src, names. cbn [src map fst]. repeat (constructor; [intros F; repeat (destruct F as [F|F]; [discriminate|]); exact F|]).
    constructor. }
  split; [vm_compute; reflexivity|]. split.
  { unfold ex_src, names, finished. cbn [src map fst]. intros b [<-|[<-|[]]].
    - cbn. split; [auto|]. split; [auto|]. intros F; repeat (destruct F as [F|F]; [discriminate|]); exact F.
    - cbn. split; [auto|]. split; [auto 6|]. intros F; repeat (destruct F as [F|F]; [discriminate|]); exact F. }
  split; [vm_compute; reflexivity|]. split; [vm_compute; auto|]. vm_compute. reflexivity.
Qed.
(** With both logs, or with a text behind the number, all goes well. *)
Example C166_ex : exists s, package "LHS" 20 (mkDisk (ex_src +++ [("flexi_LHS1_x.log", 7)]%nat) []) = (s, true) /\
  dst (dk s) =
    [("LHS12", [("flexi_LHS12.h5", 3); ("flexi_LHS12_REPORT.csv", 4); ("flexi_LHS12_BCs.csv", 5); ("flexi_LHS12.log", 6)]);
     ("LHS1", [("flexi_LHS1.h5", 1); ("flexi_LHS1_REPORT.csv", 2)])]%nat /\
  src (dk s) = [("flexi_LHS1_x.log", 7)]%nat.
Proof. eexists. split; [vm_compute; reflexivity|]. split; vm_compute; reflexivity. Qed.
(** Names without a date end the packaging, whatever else is to be packaged. *)
Theorem C166_date_refuted : forall feature nd d b, In (b ++ ".h5") (names (src d)) -> contains feature b = true ->
  (forall l, ~ In l (logs_of feature (src d))) -> contains feature (drop nd b) = false ->
  snd (package feature nd d) = false.
Proof.
  intros feature nd d b B C L N. unfold package. apply (all_fails feature nd d _ _ b); [apply in_bases; auto|].
  intros dir (log & E & F). unfold log_of in E. destruct (second feature b); [|discriminate].
  destruct (logs_of feature (src d)) as [|l r] eqn:EL; [|exact (L l (or_introl eq_refl))].
  cbn [filter] in E. injection E as <-. unfold folder in F. cbn [new_prefix] in F. unfold second, contains in *.
  destruct feature; [discriminate|]. destruct (cut _ (drop nd b)); discriminate.
Qed.
Example C166_date_ex : let d := mkDisk [("LHS1.h5", 1); ("LHS1_REPORT.csv", 2)]%nat [] in
  In ("LHS1" ++ ".h5") (names (src d)) /\ contains "LHS" "LHS1" = true /\ logs_of "LHS" (src d) = [] /\
  contains "LHS" (drop 20 "LHS1") = false.
Proof. split; [left; reflexivity|]. repeat split; reflexivity. Qed.

(** ** C167: loading *)
Lemma set_get : forall {V} n (v : V) d m, get_key m (set_key n v d) = if (m =? n)%nat then Some v else get_key m d.
Proof.
  intros V n v; induction d as [|[k w] d IH]; intros m; cbn [set_key get_key].
  - rewrite (Nat.eqb_sym n m). reflexivity.
  - destruct (Nat.eqb_spec k n) as [->|N]; cbn [get_key].
    + rewrite (Nat.eqb_sym n m). destruct (Nat.eqb_spec m n) as [->|M]; [reflexivity|]. reflexivity.
    + rewrite IH. destruct (Nat.eqb_spec k m) as [->|M]; [|reflexivity].
      destruct (Nat.eqb_spec m n); [contradiction|reflexivity].
Qed.
(** The last directory with number [n]. *)
Fixpoint last_with (n : nat) (dirs : list (string * files)) : option files :=
  match dirs with
  | [] => None
  | (d, fs) :: r => match last_with n r with
                    | Some x => Some x
                    | None => match number d with Some m => if (m =? n)%nat then Some fs else None | None => None end
                    end
  end.
Lemma select_load : forall ns dirs l acc r, select ns dirs = Some l -> load_all l acc = Some r ->
  forall n, get_key n r = if existsb (Nat.eqb n) ns
                          then match last_with n dirs with Some fs => result_file fs | None => get_key n acc end
                          else get_key n acc.
Proof.
  intros ns; induction dirs as [|[d fs] dirs IH]; intros l acc r S L n; cbn [select last_with] in *.
  - injection S as <-. cbn in L. injection L as <-. destruct (existsb _ _); reflexivity.
  - destruct (number d) as [m|]; [|discriminate]. destruct (select ns dirs) as [l'|]; [|discriminate].
    injection S as <-. destruct (existsb (Nat.eqb m) ns) eqn:EM.
    + cbn [load_all] in L. destruct (result_file fs) as [c|] eqn:RF; [|discriminate].
      rewrite (IH _ _ _ eq_refl L n), set_get.
      destruct (existsb (Nat.eqb n) ns) eqn:EN.
      * destruct (last_with n dirs); [reflexivity|]. rewrite (Nat.eqb_sym m n).
        destruct (Nat.eqb_spec n m); [rewrite RF; reflexivity|reflexivity].
      * destruct (Nat.eqb_spec n m); [subst; congruence|reflexivity].
    + rewrite (IH _ _ _ eq_refl L n). destruct (existsb (Nat.eqb n) ns) eqn:EN; [|reflexivity].
      destruct (last_with n dirs); [reflexivity|]. destruct (Nat.eqb_spec m n); [subst; congruence|reflexivity].
Qed.
Lemma existsb_in : forall n l, existsb (Nat.eqb n) l = true <-> In n l.
Proof.
  intros n l. rewrite existsb_exists. split.
  - intros (x & I & E). apply Nat.eqb_eq in E. subst. exact I.
  - intros I. exists n. split; [exact I|apply Nat.eqb_refl].
Qed.
Lemma last_some : forall n dirs fs, last_with n dirs = Some fs -> exists d, In (d, fs) dirs /\ number d = Some n.
Proof.
  intros n; induction dirs as [|[d gs] dirs IH]; intros fs H; cbn [last_with] in H; [discriminate|].
  destruct (last_with n dirs) as [x|].
  - injection H as ->. destruct (IH fs eq_refl) as (d' & I & E). exists d'. split; [right; exact I|exact E].
  - destruct (number d) as [m|] eqn:N; [|discriminate]. destruct (Nat.eqb_spec m n); [|discriminate].
    injection H as <-. subst. exists d. split; [left; reflexivity|exact N].
Qed.
Lemma last_none : forall n dirs, last_with n dirs = None -> forall d fs, In (d, fs) dirs -> number d <> Some n.
Proof.
  intros n; induction dirs as [|[d gs] dirs IH]; intros H d' fs I E; cbn [last_with] in H; [destruct I|].
  destruct (last_with n dirs) as [x|]; [discriminate|]. destruct I as [I|I]; [|exact (IH eq_refl d' fs I E)].
  injection I as -> ->. rewrite E, Nat.eqb_refl in H. discriminate.
Qed.

Lemma select_in : forall ns dirs l n d fs, select ns dirs = Some l -> In n ns -> In (d, fs) dirs -> number d = Some n ->
  In (n, fs) l.
Proof.
  intros ns; induction dirs as [|[x hs] dirs IH]; intros l n d fs S I D N; [destruct D|].
  cbn [select] in S. destruct (number x) as [m|] eqn:NX; [|discriminate].
  destruct (select ns dirs) as [l'|]; [|discriminate]. injection S as <-. destruct D as [D|D].
  - injection D as -> ->. rewrite N in NX. injection NX as <-. apply existsb_in in I. rewrite I. left. reflexivity.
  - pose proof (IH l' n d fs eq_refl I D N) as X. destruct (existsb (Nat.eqb m) ns); [right; exact X|exact X].
Qed.

(** The results of exactly the numbers asked for are returned, each from the last folder with this number. *)
Theorem C167_selected : forall id ns dirs r, load_by_name id (Some ns) dirs = Some r -> forall n,
  (forall c, get_key n r = Some c -> In n ns /\ exists d fs, In (d, fs) dirs /\ number d = Some n /\ result_file fs = Some c) /\
  (In n ns -> (exists d fs, In (d, fs) dirs /\ number d = Some n) -> exists c, get_key n r = Some c).
Proof.
  intros id ns dirs r H n. unfold load_by_name in H. destruct (existsb _ dirs); [|discriminate].
  destruct (select ns dirs) as [l|] eqn:S; [|discriminate].
  assert (L : load_all l [] = Some r) by (destruct l; [discriminate|exact H]).
  pose proof (select_load ns dirs l [] r S L n) as E. cbn [get_key] in E.
  assert (RF : forall l acc r, load_all l acc = Some r -> forall m fs, In (m, fs) l -> exists c, result_file fs = Some c).
  { induction l0 as [|[m gs] l0 IH]; intros acc r0 H0 m' fs I; [destruct I|]. cbn [load_all] in H0.
    destruct (result_file gs) as [c|] eqn:R0; [|discriminate]. destruct I as [I|I]; [injection I as -> ->; eauto|].
    exact (IH _ _ H0 m' fs I). }
  split.
  - intros c G. rewrite G in E. destruct (existsb (Nat.eqb n) ns) eqn:EN; [|discriminate].
    apply existsb_in in EN. split; [exact EN|]. destruct (last_with n dirs) as [fs|] eqn:LW; [|discriminate].
    destruct (last_some n dirs fs LW) as (d & I & N). exists d, fs. auto.
  - intros I (d & fs & D & N). apply existsb_in in I. rewrite I in E.
    destruct (last_with n dirs) as [gs|] eqn:LW; [|destruct (last_none n dirs LW d fs D N)].
    destruct (last_some n dirs gs LW) as (d' & D' & N').
    assert (IS : In (n, gs) l).
    { exact (select_in ns dirs l n d' gs S (proj1 (existsb_in n ns) I) D' N'). }
    destruct (RF l [] r L n gs IS) as [c R]. exists c. rewrite E. exact R.
Qed.
(** Of several folders with the same number (other sets, other versions) only the last one in the listing is loaded. *)
Theorem C167_same_number_refuted : forall id ns l1 d fs l2 d' fs' l3 r n,
  load_by_name id (Some ns) (l1 +++ (d, fs) :: l2 +++ (d', fs') :: l3) = Some r ->
  In n ns -> number d = Some n -> number d' = Some n -> (forall e gs, In (e, gs) l3 -> number e <> Some n) ->
  get_key n r = result_file fs'.
Proof.
  intros id ns l1 d fs l2 d' fs' l3 r n H I N N' L3. unfold load_by_name in H. destruct (existsb _ _); [|discriminate].
  destruct (select ns _) as [l|] eqn:S; [|discriminate].
  assert (L : load_all l [] = Some r) by (destruct l; [discriminate|exact H]).
  rewrite (select_load _ _ _ _ _ S L n), (proj2 (existsb_in n ns) I).
  assert (LW : last_with n (l1 +++ (d, fs) :: l2 +++ (d', fs') :: l3) = Some fs').
  { assert (A : forall x l, last_with n l = Some fs' -> last_with n (x :: l) = Some fs').
    { intros [e gs] l0 E. cbn [last_with]. rewrite E. reflexivity. }
    assert (B : forall k l, last_with n l = Some fs' -> last_with n (k +++ l) = Some fs').
    { induction k as [|x k IH]; intros l0 E; [exact E|]. cbn [app]. apply A, IH, E. }
    apply B, A, B. cbn [last_with]. destruct (last_with n l3) as [gs|] eqn:E3.
    - destruct (last_some n l3 gs E3) as (e & J & K). destruct (L3 e gs J K).
    - rewrite N', Nat.eqb_refl. reflexivity. }
  rewrite LW. reflexivity.
Qed.
(** All results ([set_numbers=None]) can never be loaded. *)
Theorem C167_none_refuted : forall id dirs, load_by_name id None dirs = None.
Proof. intros id dirs. unfold load_by_name. destruct (existsb _ _); reflexivity. Qed.
(** The identifier does not choose anything: results of any other set with the right numbers are loaded too. *)
Theorem C167_identifier_refuted : forall id id' ns dirs d fs d' fs',
  In (d, fs) dirs -> contains id d = true -> In (d', fs') dirs -> contains id' d' = true ->
  load_by_name id ns dirs = load_by_name id' ns dirs.
Proof.
  intros id id' ns dirs d fs d' fs' I C I' C'. unfold load_by_name.
  rewrite (proj2 (existsb_exists _ dirs)) by (exists (d, fs); auto).
  rewrite (proj2 (existsb_exists _ dirs)) by (exists (d', fs'); auto). reflexivity.
Qed.
Example C167_identifier_ex :
  load_by_name "LHS" (Some [1; 2]%nat) [("LHS1", [("LHS1.h5", 10)]); ("winter2", [("winter2.h5", 20)])]%nat
  = Some [(1, 10); (2, 20)]%nat.
Proof. reflexivity. Qed.
(** One entry without a number makes all results unavailable. *)
Theorem C167_entry_refuted : forall id ns dirs d fs, In (d, fs) dirs -> number d = None ->
  load_by_name id ns dirs = None.
Proof.
  intros id ns dirs d fs I N. unfold load_by_name. destruct (existsb _ _); [|reflexivity].
  destruct ns as [ns|]; [|reflexivity].
  assert (S : select ns dirs = None); [|rewrite S; reflexivity].
  induction dirs as [|[e gs] dirs IH]; [destruct I|]. cbn [select]. destruct I as [I|I].
  - injection I as -> ->. rewrite N. reflexivity.
  - rewrite (IH I). destruct (number e); reflexivity.
Qed.

(** Packaged results can be loaded by their number, if no other folder has it and all folders have one. *)
Theorem C167_packaged : forall feature nd d s b log dir n c, NoDup (names (src d)) -> package feature nd d = (s, true) ->
  finished (src d) b -> contains feature b = true ->
  log_of feature (logs_of feature (src d)) b = Some log -> folder feature nd log b = Some dir ->
  ~ In dir (map fst (dst d)) ->
  (forall b' log', finished (src d) b' -> contains feature b' = true ->
     log_of feature (logs_of feature (src d)) b' = Some log' -> folder feature nd log' b' = Some dir -> b' = b) ->
  In (b ++ ".h5", c) (src d) ->
  number dir = Some n -> (forall dir' fs', In (dir', fs') (dst (dk s)) -> number dir' = Some n -> dir' = dir) ->
  (forall dir' fs', In (dir', fs') (dst (dk s)) -> number dir' <> None) ->
  load_by_name feature (Some [n]) (dst (dk s)) = Some [(n, c)].
Proof.
  intros feature nd d s b log dir n c ND H FI C EL EF NO U HC N UN AN.
  assert (K : forall fs, In (dir, fs) (dst (dk s)) -> result_file fs = Some c).
  { intros fs D. destruct (proj2 (C166_folders feature nd d s ND H) dir fs D) as [G|(b' & log' & FI' & C' & EL' & EF' & K)].
    - destruct NO. apply in_map_iff. exists (dir, fs). auto.
    - pose proof (U b' log' FI' C' EL' EF') as ->. rewrite EL in EL'. injection EL' as <-.
      unfold result_file. set (fl := filter _ fs).
      assert (A : In (new_prefix nd log b ++ ".h5", c) fl).
      { apply filter_In. split; [apply K; left; auto|]. cbn [fst].
        rewrite (proj2 (stem_iff ".h5" _ (new_prefix nd log b)) eq_refl). reflexivity. }
      destruct fl as [|[m x] r] eqn:EFL; [destruct A|]. cbn [snd]. f_equal.
      assert (B : In (m, x) (filter (fun f => match stem ".h5" (fst f) with Some _ => true | None => false end) fs))
        by (fold fl; rewrite EFL; left; reflexivity).
      apply filter_In in B. cbn [fst] in B. destruct B as [B ST]. destruct (stem ".h5" m) as [q|] eqn:SQ; [|discriminate].
      apply stem_iff in SQ. apply K in B. destruct B as [[E B]|[[E B]|[[E B]|[E B]]]].
      + exact (nodup_content _ _ _ _ ND B HC).
      + exfalso. rewrite SQ in E. revert E. endings.
      + exfalso. rewrite SQ in E. revert E. endings.
      + exfalso. rewrite E in EL. destruct (logs_are feature d m (log_of_in feature d b m EL)) as [a Ea].
        rewrite SQ in Ea. revert Ea. endings. }
  destruct (C166_all_partial feature nd d s b log dir ND H FI C EL EF NO U) as (fs0 & c0 & D0 & _).
  assert (CD : contains feature dir = true).
  { unfold folder in EF. destruct (second feature _) as [rest|]; [|discriminate]. injection EF as <-.
    apply contains_iff. exists "", rest. reflexivity. }
  unfold load_by_name. rewrite (proj2 (existsb_exists _ _)) by (exists (dir, fs0); auto).
  assert (SL : forall l, (forall x, In x l -> In x (dst (dk s))) -> exists k, select [n] l = Some k /\
    (forall x, In x k -> exists fs, x = (n, fs) /\ In (dir, fs) (dst (dk s))) /\
    (forall fs, In (dir, fs) l -> In (n, fs) k)).
  { induction l as [|[e gs] l IH]; intros SUB; cbn [select].
    - exists []. split; [reflexivity|]. split; [intros x []|intros fs []].
    - destruct (IH (fun x I => SUB x (or_intror I))) as (k & E & A & B). rewrite E.
      pose proof (SUB _ (or_introl eq_refl)) as I0.
      destruct (number e) as [m|] eqn:NE; [|destruct (AN e gs I0 NE)]. eexists. split; [reflexivity|].
      cbn [existsb]. rewrite orb_false_r. destruct (Nat.eqb_spec m n) as [->|NM].
      + pose proof (UN e gs I0 NE) as ->. split.
        * intros x [<-|X]; [exists gs; auto|exact (A x X)].
        * intros fs [I|I]; [injection I as <-; left; reflexivity|right; exact (B fs I)].
      + split; [exact A|]. intros fs [I|I]; [injection I as -> ->; congruence|exact (B fs I)]. }
  destruct (SL (dst (dk s)) (fun x I => I)) as (k & E & A & B). rewrite E.
  pose proof (B fs0 D0) as KI. destruct k as [|x k]; [destruct KI|]. clear KI B E.
  assert (LA : forall k acc, (forall x, In x k -> exists fs, x = (n, fs) /\ In (dir, fs) (dst (dk s))) ->
    (acc = [] /\ k <> [] \/ acc = [(n, c)]) -> load_all k acc = Some [(n, c)]).
  { induction k0 as [|y k0 IH]; intros acc A0 AC; cbn [load_all].
    - destruct AC as [[_ F]| ->]; [contradiction|reflexivity].
    - destruct (A0 y (or_introl eq_refl)) as (fs & -> & D). rewrite (K fs D).
      apply IH; [intros z Z; apply A0; right; exact Z|]. right. destruct AC as [[-> _]| ->]; cbn [set_key]; [reflexivity|].
      rewrite Nat.eqb_refl. reflexivity. }
  apply LA; [exact A|]. left. split; [reflexivity|discriminate].
Qed.
Example C167_packaged_ex : exists s, package "LHS" 20 (mkDisk (ex_src +++ [("flexi_LHS1_x.log", 7)]%nat) []) = (s, true) /\
  load_by_name "LHS" (Some [12]%nat) (dst (dk s)) = Some [(12, 3)]%nat.
Proof. eexists. split; [vm_compute; reflexivity|]. vm_compute. reflexivity. Qed.

(** The tables of a result file: with the one table [sim_vecs] at the root, as complete files have, exactly the wanted
    ones are read ... *)
Definition asked (keys : option (list string)) (k : string) : Prop :=
  match keys with None => True | Some l => In ("/" ++ k) l \/ (In k l /\ forall r, k <> "/" ++ r) end.
Lemma asked_wanted : forall keys k, wanted keys k = true <-> asked keys k.
Proof.
  intros [l|] k; cbn [wanted asked]; [|split; auto]. unfold mem. rewrite existsb_exists. split.
  - intros (x & I & E). apply String.eqb_eq in E. subst x. apply in_map_iff in I. destruct I as (x & E & I).
    destruct x as [|c x]; cbn in E; [subst k; right; split; [exact I|discriminate]|].
    destruct (Ascii.eqb_spec c "/"%char) as [->|NE]; [left; subst k; exact I|].
    assert (E' : String c x = k). { revert E. destruct c as [[] [] [] [] [] [] [] []]; intros E; try exact E; exfalso; apply NE; reflexivity. }
    clear E. right. subst k. split; [exact I|]. intros r Q. injection Q as -> _. apply NE; reflexivity.
  - intros H. exists k. split; [|apply String.eqb_refl]. apply in_map_iff. destruct H as [H|[H N]].
    + exists ("/" ++ k). split; [reflexivity|exact H].
    + exists k. split; [|exact H]. destruct k as [|c k]; [reflexivity|]. cbn.
      destruct (Ascii.eqb_spec c "/"%char) as [->|NE]; [exfalso; apply (N k); reflexivity|].
      destruct c as [[] [] [] [] [] [] [] []]; try reflexivity; exfalso; apply NE; reflexivity.
Qed.
Theorem C167_tables : forall keys t gs r k, NoDup (map fst gs) -> load_tables keys (mkH5 [t] gs) = Some (r, k) ->
  (r = Some t <-> asked keys (fst t)) /\
  forall g lv c, (exists ts, In (g, ts) k /\ In (lv, c) ts) <->
    (exists ts, In (g, ts) gs /\ In (lv, c) ts) /\ asked keys (g ++ "/" ++ lv).
Proof.
  intros keys t gs r k ND H. setoid_rewrite <- asked_wanted. unfold load_tables in H. cbn [root groups] in H.
  set (k0 := filter _ _) in H. assert (E : r = (if wanted keys (fst t) then Some t else None) /\ k = k0).
  { destruct (wanted keys (fst t)); [injection H as <- <-; auto|]. destruct k0; [discriminate|]. injection H as <- <-. auto. }
  destruct E as [-> ->]. clear H. split.
  - destruct (wanted keys (fst t)); split; try reflexivity; discriminate.
  - intros g lv c. unfold k0. split.
    + intros (ts & I & J). apply filter_In in I. destruct I as [I _]. apply in_map_iff in I.
      destruct I as ([g' ts'] & E & I). cbn [fst snd] in E. injection E as -> <-. apply filter_In in J.
      destruct J as [J W]. split; [exists ts'; auto|exact W].
    + intros [(ts & I & J) W]. exists (filter (fun l => wanted keys (g ++ "/" ++ fst l)) ts).
      assert (JF : In (lv, c) (filter (fun l => wanted keys (g ++ "/" ++ fst l)) ts)) by (apply filter_In; auto).
      split; [|exact JF]. apply filter_In. split.
      * apply in_map_iff. exists (g, ts). auto.
      * cbn [snd]. destruct (filter _ ts); [destruct JF|reflexivity].
Qed.
(** ... missing ones are only noticed if none is there ... *)
Theorem C167_missing : forall keys t gs, load_tables (Some keys) (mkH5 [t] gs) = None <->
  ~ asked (Some keys) (fst t) /\ forall g ts lv c, In (g, ts) gs -> In (lv, c) ts -> ~ asked (Some keys) (g ++ "/" ++ lv).
Proof.
  intros keys t gs. setoid_rewrite <- asked_wanted. setoid_rewrite not_true_iff_false. revert keys t gs.
  intros keys t gs. unfold load_tables. cbn [root groups]. set (k0 := filter _ _). split.
  - intros H. destruct (wanted (Some keys) (fst t)) eqn:W; [destruct k0; discriminate|]. split; [reflexivity|].
    intros g ts lv c I J. destruct (wanted (Some keys) (g ++ "/" ++ lv)) eqn:W'; [|reflexivity]. exfalso.
    destruct k0 as [|x k1] eqn:E; [|discriminate].
    assert (X : In (g, filter (fun l => wanted (Some keys) (g ++ "/" ++ fst l)) ts) k0).
    { unfold k0. apply filter_In. split; [apply in_map_iff; exists (g, ts); auto|]. cbn [snd].
      assert (JF : In (lv, c) (filter (fun l => wanted (Some keys) (g ++ "/" ++ fst l)) ts)) by (apply filter_In; auto).
      destruct (filter _ ts); [destruct JF|reflexivity]. }
    rewrite E in X. destruct X.
  - intros [-> H]. destruct k0 as [|[g k1] k2] eqn:E; [reflexivity|exfalso].
    assert (X : In (g, k1) k0) by (rewrite E; left; reflexivity). unfold k0 in X. apply filter_In in X.
    destruct X as [X NE]. apply in_map_iff in X. destruct X as ([g' ts] & EQ & I). cbn [fst snd] in *.
    assert (EG : g' = g) by exact (f_equal fst EQ). subst g'.
    assert (EK : filter (fun l => wanted (Some keys) (g ++ "/" ++ fst l)) ts = k1) by exact (f_equal snd EQ).
    destruct k1 as [|[lv c] r]; [discriminate|].
    assert (Y : In (lv, c) (filter (fun l => wanted (Some keys) (g ++ "/" ++ fst l)) ts)) by (rewrite EK; left; reflexivity).
    apply filter_In in Y. destruct Y as [Y W]. cbn [fst] in W. rewrite (H g ts lv c I Y) in W. discriminate.
Qed.
(** ... but a file without table at the root (of a run that was not completed) cannot be read at all, whatever tables are
    asked for, and further tables at the root are never read. *)
Theorem C167_root_refuted : forall keys t ts gs,
  load_tables keys (mkH5 [] gs) = None /\ load_tables keys (mkH5 (t :: ts) gs) = load_tables keys (mkH5 [t] gs).
Proof. intros. split; reflexivity. Qed.
Example C167_tables_ex :
  load_tables (Some ["/tes/res"; "pipe/dm"]) (mkH5 [("sim_vecs", 0)] [("tes", [("res", 1); ("dm", 2)]); ("pipe", [("dm", 3)]); ("pump", [("dm", 4)])])%nat
  = Some (None, [("tes", [("res", 1)]); ("pipe", [("dm", 3)])])%nat.
Proof. reflexivity. Qed.

Print Assumptions C166_nothing_lost.
Print Assumptions C166_folders.
Print Assumptions C166_all_partial.
Print Assumptions C166_ends.
Print Assumptions C166_reported_refuted.
Print Assumptions C166_exists_refuted.
Print Assumptions C166_shared_refuted.
Print Assumptions C166_log_refuted.
Print Assumptions C166_date_refuted.
Print Assumptions C167_selected.
Print Assumptions C167_same_number_refuted.
Print Assumptions C167_none_refuted.
Print Assumptions C167_identifier_refuted.
Print Assumptions C167_entry_refuted.
Print Assumptions C167_packaged.
Print Assumptions C167_tables.
Print Assumptions C167_missing.
Print Assumptions C167_root_refuted.
