(** Port specifications (C105). *)
From Coq Require Import Reals List String Arith Bool Lra Lia.
From Verif Require Import MFlow MSpecs.
Import ListNotations.
Open Scope string_scope.

(** The dimensions a specification stands for: the column of the table, or the given areas. *)
Definition means (t : table) (s : spec) (v : R * R) : Prop :=
  match sp_dn s with
  | Some dn => exists ty, sp_type s = Some ty /\ In (ty, dn, v) (tb_cols t)
  | None => sp_A s = Some (fst v) /\ sp_w s = Some (snd v)
  end.
(** A table lists each pair of pipe type and diameter once, and pipe types are no names of rows. *)
Definition table_ok (t : table) : Prop :=
  NoDup (map fst (tb_cols t)) /\ forall c, In c (tb_cols t) -> ~ In (fst (fst c)) (tb_rows t).
Definition known_type (t : table) (s : spec) : Prop :=
  exists ty dn v, sp_type s = Some ty /\ In (ty, dn, v) (tb_cols t).

Lemma column_some t ty dn v : column t ty dn = Some v -> In (ty, dn, v) (tb_cols t).
Proof.
  unfold column. destruct (find _ _) as [[[a b] w]|] eqn:F; [|discriminate]. cbn. intros [= <-].
  apply find_some in F. destruct F as [I E]. cbn in E. apply andb_prop in E. destruct E as [E1 E2].
  apply String.eqb_eq in E1, E2. subst. exact I.
Qed.
Lemma column_in t ty dn v : NoDup (map fst (tb_cols t)) -> In (ty, dn, v) (tb_cols t) -> column t ty dn = Some v.
Proof.
  intros N I. unfold column. induction (tb_cols t) as [|[[a b] w] r IH]; [destruct I|].
  cbn in *. inversion N as [|? ? N1 N2]; subst. destruct (String.eqb a ty && String.eqb b dn)%bool eqn:E.
  - apply andb_prop in E. destruct E as [E1 E2]. apply String.eqb_eq in E1, E2. subst.
    destruct I as [I|I]; [injection I as ->; reflexivity|]. exfalso. apply N1. change (ty, dn) with (fst (ty, dn, v)). apply in_map. exact I.
  - destruct I as [I|I]; [injection I as -> -> ->; rewrite !String.eqb_refl in E; discriminate|]. apply IH; assumption.
Qed.

Lemma areas_means t s v : areas (column t) s = Some v -> means t s v.
Proof.
  unfold areas, means. destruct (sp_type s) as [ty|]; [|destruct (sp_dn s), (sp_A s), (sp_w s); discriminate].
  destruct (sp_dn s) as [dn|].
  - intros H. exists ty. split; [reflexivity|]. apply column_some, H.
  - destruct (sp_A s), (sp_w s); try discriminate. intros [= <-]. split; reflexivity.
Qed.

Lemma index_spec ns p : forall i, index ns p = Some i -> nth_error ns i = Some p.
Proof.
  induction ns as [|x r IH]; intros i; [discriminate|]. cbn. destruct (String.eqb x p) eqn:E.
  - intros [= <-]. apply String.eqb_eq in E. subst. reflexivity.
  - destruct (index r p) as [k|]; [|discriminate]. cbn. intros [= <-]. apply IH. reflexivity.
Qed.
Lemma index_in ns p : In p ns -> exists i, index ns p = Some i.
Proof.
  induction ns as [|x r IH]; [intros []|]. cbn. intros [->|I].
  - rewrite String.eqb_refl. eauto.
  - destruct (String.eqb x p); [eauto|]. destruct (IH I) as [i ->]. cbn. eauto.
Qed.

(** With the single key 'all', the part is accepted exactly when the specification is known, and
    every port has its dimensions. *)
Theorem C105_all_partial : forall odd t ns s, table_ok t -> spec_complete s = true ->
  (forall v, means t s v -> known_type t s -> exists st, get_specs odd t ns [("all", s)] = Some st /\ forall i, st i = v) /\
  (forall st, get_specs odd t ns [("all", s)] = Some st -> known_type t s /\ exists v, means t s v /\ forall i, st i = v).
Proof.
  intros odd t ns s [ND _] C. unfold get_specs. cbn [forallb snd existsb fst String.eqb List.length].
  rewrite C. cbn [andb orb Ascii.eqb eqb Nat.eqb specs_loop].
  unfold spec_complete in C. destruct (sp_type s) as [ty|] eqn:Et; [|discriminate].
  assert (HT : has_type t ty = true <-> known_type t s).
  { unfold has_type, known_type. rewrite existsb_exists. split.
    - intros ([[a b] w] & I & E). cbn in E. apply String.eqb_eq in E. subst a. exists ty, b, w. split; [exact Et|exact I].
    - intros (ty' & dn & v & E & I). rewrite Et in E. injection E as E; subst ty'. exists (ty, dn, v). split; [exact I|]. apply String.eqb_refl. }
  split.
  - intros v M K. apply HT in K. unfold spec_known. rewrite Et, K. cbn [andb]. unfold means in M. unfold areas. rewrite Et.
    destruct (sp_dn s) as [dn|] eqn:Ed.
    + destruct M as (ty' & E & I). rewrite Et in E. injection E as E; subst ty'. rewrite (column_in t ty dn v ND I).
      cbn. eexists. split; [reflexivity|]. reflexivity.
    + destruct M as [-> ->]. cbn. eexists. split; [reflexivity|]. intros i. destruct v; reflexivity.
  - intros st. unfold spec_known. rewrite Et. destruct (has_type t ty) eqn:K; [|discriminate]. cbn [andb].
    match goal with |- context [if ?b then _ else None] => destruct b end; [|discriminate].
    destruct (areas (column t) s) as [v|] eqn:A; [|discriminate]. cbn. intros [= <-].
    split; [apply HT; reflexivity|]. exists v. split; [apply areas_means, A|reflexivity].
Qed.
Print Assumptions C105_all_partial.

Lemma loc_none odd t ty dn v : table_ok t -> In (ty, dn, v) (tb_cols t) -> forall d, loc odd t ty d = None.
Proof.
  intros [_ H] I d. unfold loc. destruct (existsb _ _) eqn:E; [|reflexivity].
  apply existsb_exists in E. destruct E as (x & Ix & E). apply String.eqb_eq in E. subst x.
  exfalso. apply (H _ I). exact Ix.
Qed.
Lemma known_in t s : spec_known t s = true -> exists ty dn v, sp_type s = Some ty /\ In (ty, dn, v) (tb_cols t).
Proof.
  unfold spec_known. destruct (sp_type s) as [ty|]; [|discriminate]. intros H. apply andb_prop in H. destruct H as [H _].
  apply existsb_exists in H. destruct H as ([[a b] w] & I & E). cbn in E. apply String.eqb_eq in E. subst. eauto.
Qed.

(** Specifications port by port, as the error text describes them: whenever one of the values names a
    nominal diameter, the call raises, for every table. *)
Theorem C105_table_refuted : forall odd t ns l k s dn, table_ok t -> In (k, s) l -> sp_dn s = Some dn ->
  (List.length l <> 1%nat \/ k <> "all") -> get_specs odd t ns l = None.
Proof.
  intros odd t ns l k s dn T I D O. unfold get_specs. destruct (forallb _ l); [|reflexivity]. cbv zeta.
  assert (F : (existsb (fun p => String.eqb (fst p) "all") l && (List.length l =? 1)%nat)%bool = false).
  { destruct (List.length l =? 1)%nat eqn:E; [|apply andb_false_r]. rewrite andb_true_r.
    apply Nat.eqb_eq in E. destruct O as [O|O]; [congruence|]. destruct l as [|x [|? ?]]; try discriminate.
    destruct I as [->|[]]. cbn. rewrite orb_false_r. apply String.eqb_neq. exact O. }
  rewrite F. generalize (fun _ : nat => (0%R, 0%R)). clear O F.
  assert (G : forall st, specs_loop odd t ns false l st = None).
  2:{ intros st. rewrite G. reflexivity. }
  induction l as [|[k' s'] r IH]; intros st; [destruct I|]. cbn [specs_loop].
  destruct (spec_known t s') eqn:K; [|reflexivity]. destruct (index ns k'); [|reflexivity].
  destruct I as [E|I].
  - injection E as -> ->. destruct (known_in t s K) as (ty & d & v & Et & It).
    unfold areas. rewrite Et, D. rewrite (loc_none odd t ty d v T It). reflexivity.
  - destruct (areas _ s'); [|reflexivity]. apply IH. exact I.
Qed.
Print Assumptions C105_table_refuted.

(** With the areas given explicitly, a call that returns has assigned its own dimensions to every port. *)
Lemma specs_loop_keep odd t ns : forall l st st', specs_loop odd t ns false l st = Some st' ->
  forall i p, nth_error ns i = Some p -> NoDup ns ->
  (~ In p (map fst l) -> st' i = st i) /\
  (forall s v, NoDup (map fst l) -> In (p, s) l -> sp_dn s = None -> means t s v -> st' i = v).
Proof.
  induction l as [|[k s] r IH]; intros st st'; cbn [specs_loop].
  - intros [= <-] i p _ _. split; [reflexivity|intros ? ? _ []].
  - destruct (spec_known t s); [|discriminate]. destruct (index ns k) as [j|] eqn:Ek; [|discriminate].
    destruct (areas (loc odd t) s) as [v0|] eqn:A; [|discriminate]. intros H i p Hp ND.
    destruct (IH _ _ H i p Hp ND) as [I1 I2]. pose proof (index_spec _ _ _ Ek) as Hj. split.
    + intros N. rewrite I1 by (intros Q; apply N; right; exact Q).
      destruct (Nat.eqb_spec i j) as [->|]; [|reflexivity]. exfalso. apply N. left. cbn. congruence.
    + intros s' v NDl [E|I] Dn M.
      * injection E as -> ->. inversion NDl as [|? ? N1 N2]; subst. rewrite I1 by exact N1.
        assert (i = j) as ->.
        { apply (proj1 (NoDup_nth_error ns) ND); [apply nth_error_Some; congruence|congruence]. }
        rewrite Nat.eqb_refl. unfold means in M. rewrite Dn in M. destruct M as [M1 M2].
        unfold areas in A. rewrite Dn, M1, M2 in A. destruct (sp_type s'); [|discriminate].
        injection A as <-. destruct v; reflexivity.
      * inversion NDl as [|? ? N1 N2]; subst. apply (I2 s' v N2 I Dn M).
Qed.
Lemma specs_loop_keys odd t ns : forall l st st', specs_loop odd t ns false l st = Some st' -> incl (map fst l) ns.
Proof.
  induction l as [|[k s] r IH]; intros st st'; cbn [specs_loop]; [intros _ x []|].
  destruct (spec_known t s); [|discriminate]. destruct (index ns k) as [j|] eqn:Ek; [|discriminate].
  destruct (areas (loc odd t) s); [|discriminate]. intros H x [<-|I]; [|exact (IH _ _ H x I)].
  apply index_spec in Ek. eapply nth_error_In, Ek.
Qed.

Theorem C105_each_partial : forall odd t ns l st, table_ok t -> NoDup ns -> NoDup (map fst l) ->
  ~ In "all" (map fst l) -> get_specs odd t ns l = Some st ->
  forall i p, nth_error ns i = Some p -> exists s, In (p, s) l /\ forall v, means t s v -> st i = v.
Proof.
  intros odd t ns l st T ND NDl NA H i p Hp.
  assert (E : existsb (fun q => String.eqb (fst q) "all") l = false).
  { destruct (existsb _ l) eqn:X; [|reflexivity]. apply existsb_exists in X. destruct X as (q & Iq & Eq).
    apply String.eqb_eq in Eq. exfalso. apply NA. rewrite <- Eq. apply in_map, Iq. }
  assert (NoDN : forall k s, In (k, s) l -> sp_dn s = None).
  { intros k s I. destruct (sp_dn s) as [dn|] eqn:D; [|reflexivity].
    rewrite (C105_table_refuted odd t ns l k s dn T I D) in H; [discriminate|]. right. intros ->.
    apply NA. change "all" with (fst ("all", s)). apply in_map, I. }
  unfold get_specs in H. destruct (forallb _ l); [|discriminate]. cbv zeta in H. rewrite E in H. cbn [andb orb] in H.
  destruct (specs_loop odd t ns false l _) as [st'|] eqn:L; [|discriminate].
  destruct (List.length l =? List.length ns)%nat eqn:Len; [|discriminate]. injection H as ->. apply Nat.eqb_eq in Len.
  pose proof (specs_loop_keys _ _ _ _ _ _ L) as Inc.
  assert (Ip : In p (map fst l)).
  { apply (NoDup_length_incl NDl (l' := ns)); [rewrite map_length; lia|exact Inc|]. eapply nth_error_In, Hp. }
  apply in_map_iff in Ip. destruct Ip as ([k s] & Ek & I). cbn in Ek. subst k. exists s. split; [exact I|].
  intros v M. destruct (specs_loop_keep _ _ _ _ _ _ L i p Hp ND) as [_ K]. exact (K s v NDl I (NoDN p s I) M).
Qed.
Print Assumptions C105_each_partial.

(** ** Cases *)
Definition ex_table : table := {| tb_cols := [("EN10255_medium", "DN50", (22/10000, 7/10000)%R); ("EN10255_medium", "DN65", (37/10000, 9/10000)%R)];
  tb_rows := ["d_i"; "d_o"; "A_i"; "A_wall"] |}.
Definition ex_dn d : spec := {| sp_type := Some "EN10255_medium"; sp_dn := Some d; sp_A := None; sp_w := None |}.
Definition ex_own a w : spec := {| sp_type := Some "EN10255_medium"; sp_dn := None; sp_A := Some a; sp_w := Some w |}.
Example ex_table_ok : table_ok ex_table.
Proof.
  split.
  - cbn. repeat constructor; cbn; intuition discriminate.
  - intros c [<-|[<-|[]]]; cbn; intuition discriminate.
Qed.
Example ex_all : exists st, get_specs None ex_table ["in"; "out"] [("all", ex_dn "DN65")] = Some st /\ st 1%nat = (37/10000, 9/10000)%R.
Proof. eexists. split; [reflexivity|]. reflexivity. Qed.
Example ex_ports : get_specs None ex_table ["in"; "out"] [("in", ex_dn "DN50"); ("out", ex_dn "DN65")] = None.
Proof. reflexivity. Qed.
Example ex_owns : exists st, get_specs None ex_table ["in"; "out"] [("out", ex_own 2 1); ("in", ex_own 4 3)] = Some st /\
  st 0%nat = (4, 3)%R /\ st 1%nat = (2, 1)%R.
Proof. eexists. split; [reflexivity|]. split; reflexivity. Qed.
