(** Proofs about the flow network. *)
From Coq Require Import Reals ZArith List Bool Lra Lia Arith Permutation FunctionalExtensionality.
From Verif Require Import MNet SNet.
Import ListNotations.
Local Open Scope R_scope.

Lemma upd_eq m a x : upd m a x a = x.
Proof. unfold upd; now rewrite Nat.eqb_refl. Qed.
Lemma upd_ne m a x b : b <> a -> upd m a x b = m b.
Proof. intro; unfold upd. destruct (Nat.eqb_spec b a); congruence. Qed.

Lemma msum_total m l : msum m l = total m l.
Proof. induction l as [|a l IH]; [reflexivity|]. unfold total in *; cbn. now rewrite IH. Qed.

Lemma total_ext m m' l : (forall a, In a l -> m a = m' a) -> total m l = total m' l.
Proof.
  induction l as [|a l IH]; intro H; [reflexivity|].
  unfold total in *; cbn. rewrite (H a) by (now left).
  rewrite IH; [reflexivity|]. intros; apply H; now right.
Qed.

Lemma total_cons m a l : total m (a :: l) = m a + total m l.
Proof. reflexivity. Qed.

Lemma fold_sub t : forall l m, ~ In t l ->
  fold_left (fun m' a => upd m' t (m' t - m' a)) l m
  = upd m t (m t - total m l).
Proof.
  induction l as [|a l IH]; intros m H; cbn [fold_left].
  - unfold total; cbn. extensionality b. unfold upd.
    destruct (Nat.eqb_spec b t); [subst; lra|reflexivity].
  - rewrite IH by (intro; apply H; now right).
    extensionality b.
    destruct (Nat.eq_dec b t); [|now rewrite !upd_ne].
    subst b. rewrite !upd_eq, total_cons.
    rewrite (total_ext (upd m t (m t - m a)) m l); [lra|].
    intros c Hc. apply upd_ne. intros ->. apply H; now right.
Qed.

(** The value an entry writes. *)
Definition value (e : entry) (m : mem) : R :=
  match opid e, srcs e with
  | 0%Z, s :: _ => m s
  | (-1)%Z, l => - total m l
  | 1%Z, l => total m l
  | (-3)%Z, [a; b] => - (m a * m b)
  | (-4)%Z, [a; b] => - (m a / m b)
  | 3%Z, [a; b] => m a * m b
  | 4%Z, [a; b] => m a / m b
  | 2%Z, [a; b] => m a - m b
  | 5%Z, [a; b; c] => m a * m b / m c
  | _, _ => 0
  end.

(** The divisor of an entry, one if it has none. *)
Definition divisor (e : entry) (m : mem) : R :=
  match opid e, srcs e with
  | (-4)%Z, [a; b] => m b
  | 4%Z, [a; b] => m b
  | 5%Z, [a; b; c] => m c
  | _, _ => 1
  end.

Ltac wf_cases e W :=
  let t := fresh "t" in let o := fresh "o" in let l := fresh "l" in
  destruct e as [t o l]; unfold well_formed in W; cbn [opid srcs] in W;
  repeat match type of W with
         | match ?x with _ => _ end => destruct x; try contradiction
         end.

Lemma exec_value e m : well_formed e -> ~ In (tgt e) (srcs e) ->
  exec e m = if Req_EM_T (divisor e m) 0 then None
             else Some (upd m (tgt e) (value e m)).
Proof.
  intros W N.
  wf_cases e W; unfold exec, divisor, value, ndiv; cbn [tgt opid srcs] in *;
    try (destruct (Req_EM_T 1 0) as [E|_]; [lra|]);
    try (destruct (Req_EM_T _ 0); reflexivity);
    try (rewrite ?msum_total; reflexivity).
  (* -1 *)
  rewrite fold_sub by (intro; apply N; now right).
  f_equal. extensionality b.
  destruct (Nat.eq_dec b t); [|now rewrite !upd_ne].
  subst b. rewrite !upd_eq, total_cons.
  match goal with |- context [total (upd m t ?x) ?l] =>
    rewrite (total_ext (upd m t x) m l); [lra|] end.
  intros c Hc. apply upd_ne. intros ->. apply N; now right.
Qed.

Lemma satisfies_value e m : well_formed e ->
  (satisfies m e <-> divisor e m <> 0 /\ m (tgt e) = value e m).
Proof.
  intro W. split.
  - intro S; inversion S; subst; unfold divisor, value; cbn [opid srcs tgt];
      (split; [try lra; try assumption|]); try lra.
    all: field_simplify_eq; [lra|assumption].
  - intros [D E].
    wf_cases e W; unfold divisor, value in *; cbn [opid srcs tgt] in *;
      constructor; try assumption; try (rewrite E; try lra; field; assumption).
Qed.

Lemma satisfies_wf e m : satisfies m e -> well_formed e.
Proof. intro S; inversion S; exact I. Qed.

(** Two memories that agree on the sources give the same value. *)
Lemma value_ext e m m' : (forall a, In a (srcs e) -> m a = m' a) ->
  value e m = value e m'.
Proof.
  intro H. destruct e as [t o l]; unfold value; cbn [opid srcs tgt] in *.
  pose proof (total_ext m m' l H) as T.
  destruct o as [|p|p]; do 3 (try destruct p as [p|p|]; try reflexivity);
  try (rewrite T; reflexivity);
  do 4 (try (destruct l as [|? l]; try reflexivity; try (rewrite T; reflexivity)));
  clear T; rewrite ?H by (cbn; tauto); reflexivity.
Qed.
Lemma divisor_ext e m m' : (forall a, In a (srcs e) -> m a = m' a) ->
  divisor e m = divisor e m'.
Proof.
  intro H. destruct e as [t o l]; unfold divisor; cbn [opid srcs tgt] in *.
  destruct o as [|p|p]; do 3 (try destruct p as [p|p|]; try reflexivity);
  do 4 (try (destruct l as [|? l]; try reflexivity)); rewrite ?H by (cbn; tauto); reflexivity.
Qed.

Lemma run_frame : forall net m m' a, Forall well_formed net -> dep_ordered net ->
  run_net net m = Some m' -> ~ In a (map tgt net) -> m' a = m a.
Proof.
  induction net as [|e r IH]; intros m m' a W D R N; cbn in *.
  - now inversion R.
  - inversion W; subst. destruct D as (D1 & D2 & D3).
    rewrite exec_value in R by assumption.
    destruct (Req_EM_T (divisor e m) 0); [discriminate|].
    rewrite (IH _ _ a H2 D3 R) by tauto. apply upd_ne. intuition congruence.
Qed.

Lemma dep_disjoint e r a : dep_ordered (e :: r) -> In a (tgt e :: srcs e) ->
  ~ In a (map tgt r).
Proof.
  intros (_ & D & _) Ha Hin. apply in_map_iff in Hin. destruct Hin as (e' & <- & He').
  now apply (D e').
Qed.

Lemma run_satisfies : forall net m m', Forall well_formed net -> dep_ordered net ->
  run_net net m = Some m' -> forall e, In e net -> satisfies m' e.
Proof.
  induction net as [|e r IH]; intros m m' W D R e0 Hin; [destruct Hin|].
  inversion W as [|? ? W1 W2]; subst. pose proof D as (D1 & D2 & D3).
  cbn in R. rewrite exec_value in R by assumption.
  destruct (Req_EM_T (divisor e m) 0) as [|Nz]; [discriminate|].
  destruct Hin as [<-|Hin]; [|now apply (IH _ _ W2 D3 R)].
  assert (F : forall a, In a (srcs e) -> m' a = m a).
  { intros a Ha. rewrite (run_frame _ _ _ a W2 D3 R).
    - apply upd_ne. intros ->. contradiction.
    - apply (dep_disjoint e r a D). now right. }
  apply satisfies_value; [assumption|]. split.
  - now rewrite (divisor_ext e m' m).
  - rewrite (value_ext e m' m) by assumption.
    rewrite (run_frame _ _ _ (tgt e) W2 D3 R).
    + apply upd_eq.
    + apply (dep_disjoint e r _ D). now left.
Qed.

(** If the relations can be met, the update meets them, uniquely. *)
Lemma run_complete : forall net m m2, dep_ordered net ->
  (forall e, In e net -> satisfies m2 e) ->
  (forall a, ~ In a (map tgt net) -> m2 a = m a) ->
  run_net net m = Some m2.
Proof.
  induction net as [|e r IH]; intros m m2 D S F; cbn.
  - f_equal. extensionality a. symmetry. apply F. tauto.
  - pose proof D as (D1 & D2 & D3).
    assert (Se : satisfies m2 e) by (apply S; now left).
    pose proof (satisfies_wf _ _ Se) as W.
    apply satisfies_value in Se; [|assumption]. destruct Se as [Nz E].
    assert (A : forall a, In a (srcs e) -> m2 a = m a).
    { intros a Ha. apply F. intros [H|H].
      - subst; contradiction.
      - apply (dep_disjoint e r a D); [now right|assumption]. }
    rewrite exec_value by assumption.
    rewrite (divisor_ext e m m2) by (intros; symmetry; auto).
    destruct (Req_EM_T (divisor e m2) 0); [contradiction|].
    apply IH; [assumption|intros; apply S; now right|].
    intros a Na. unfold upd. destruct (Nat.eqb_spec a (tgt e)).
    + subst. rewrite E. symmetry. apply value_ext. intros; symmetry; auto.
    + apply F. intros [H|H]; [congruence|contradiction].
Qed.

Lemma C10_proof : forall net m m',
  Forall well_formed net -> dep_ordered net -> run_net net m = Some m' ->
  (forall e, In e net -> satisfies m' e)
  /\ (forall a, ~ In a (map tgt net) -> m' a = m a).
Proof.
  intros net m m' W D R. split.
  - now apply run_satisfies with (m := m).
  - intros; now apply run_frame with net.
Qed.

(** ** Routines *)

Definition perm3 (p q r : nat) : Prop :=
  (p < 3 /\ q < 3 /\ r < 3 /\ p <> q /\ q <> r /\ p <> r)%nat.

Lemma perm3_cases p q r : perm3 p q r ->
  (p, q, r) = (0, 1, 2)%nat \/ (p, q, r) = (0, 2, 1)%nat \/ (p, q, r) = (1, 0, 2)%nat
  \/ (p, q, r) = (1, 2, 0)%nat \/ (p, q, r) = (2, 0, 1)%nat \/ (p, q, r) = (2, 1, 0)%nat.
Proof.
  unfold perm3; intro H.
  assert (p = 0 \/ p = 1 \/ p = 2)%nat as [->|[->| ->]] by lia;
  assert (q = 0 \/ q = 1 \/ q = 2)%nat as [->|[->| ->]] by lia;
  assert (r = 0 \/ r = 1 \/ r = 2)%nat as [->|[->| ->]] by lia; try lia; tauto.
Qed.

Lemma pass_on_sat m t p : satisfies m (pass_on t p) -> m t = passed m p.
Proof.
  unfold pass_on, passed. destruct (p_pos p); intro S; inversion S; subst.
  - assumption.
  - unfold total in *; cbn in *. lra.
Qed.

(** A part's routines are all satisfied. *)
Definition all_sat (m : mem) (l : list entry) := forall e, In e l -> satisfies m e.

Lemma all_sat_cons m e l : all_sat m (e :: l) <-> satisfies m e /\ all_sat m l.
Proof.
  unfold all_sat; split.
  - intro H; split; [apply H; now left|intros; apply H; now right].
  - intros [H1 H2] e' [<-|H]; auto.
Qed.

Ltac sat_inv :=
  repeat match goal with
  | H : all_sat _ (_ :: _) |- _ => apply all_sat_cons in H; destruct H
  end.

Lemma C11_connector_proof : forall d p q r pp pq pr es m,
  perm3 p q r ->
  routines (conn_routine d) [] [(p, Some pp); (q, Some pq); (r, pr)] = Some es ->
  all_sat m es ->
  m (d + p)%nat = passed m pp /\ m (d + q)%nat = passed m pq
  /\ m d + m (d + 1)%nat + m (d + 2)%nat = 0.
Proof.
  intros d p q r pp pq pr es m P R S.
  destruct (perm3_cases _ _ _ P) as [E|[E|[E|[E|[E|E]]]]];
    injection E as -> -> ->; cbn in R; injection R as <-; sat_inv;
    repeat match goal with H : satisfies _ (pass_on _ _) |- _ => apply pass_on_sat in H end;
    (split; [assumption|split; [assumption|]]);
    match goal with H : satisfies _ _ |- _ => inversion H; subst end;
    unfold total in *; cbn in *; rewrite ?Nat.add_0_r in *; lra.
Qed.

Lemma C11_valve_proof : forall d f q r pa pq pr es m,
  (q = 0 /\ r = 1 \/ q = 1 /\ r = 0)%nat ->
  routines (valve_routine d f) [] [(2%nat, Some pa); (q, pq); (r, pr)] = Some es ->
  all_sat m es -> m f + m (f + 1)%nat = 1 ->
  m (d + 2)%nat = passed m pa
  /\ m d = m f * m (d + 2)%nat /\ m (d + 1)%nat = m (f + 1)%nat * m (d + 2)%nat
  /\ m d + m (d + 1)%nat = m (d + 2)%nat.
Proof.
  intros d f q r pa pq pr es m P R S F.
  destruct P as [[-> ->]|[-> ->]]; cbn in R; injection R as <-; sat_inv;
    repeat match goal with H : satisfies _ (pass_on _ _) |- _ => apply pass_on_sat in H end;
    (split; [assumption|]);
    repeat match goal with H : satisfies _ _ |- _ => inversion H; subst; clear H end;
    rewrite ?Nat.add_0_r in *;
    match goal with H1 : m d = _, H2 : m (d + 1)%nat = _ |- _ =>
      rewrite H1, H2 end; repeat split; try ring;
    replace (m (f + 1)%nat) with (1 - m f) by lra; ring.
Qed.

Lemma C11_pvalve_proof : forall d f p q r pp pq pr es m,
  perm3 p q r ->
  routines (pvalve_routine d f) [] [(p, Some pp); (q, pq); (r, pr)] = Some es ->
  all_sat m es -> m f + m (f + 1)%nat = 1 ->
  m (d + p)%nat = passed m pp
  /\ m d = - (m f * m (d + 2)%nat)
  /\ m (d + 1)%nat = - (m (f + 1)%nat * m (d + 2)%nat)
  /\ m d + m (d + 1)%nat + m (d + 2)%nat = 0.
Proof.
  intros d f p q r pp pq pr es m P R S F.
  assert (G : m (d + p)%nat = passed m pp /\ m d = - (m f * m (d + 2)%nat)
              /\ m (d + 1)%nat = - (m (f + 1)%nat * m (d + 2)%nat)).
  { destruct (perm3_cases _ _ _ P) as [E|[E|[E|[E|[E|E]]]]];
      injection E as -> -> ->; cbn in R; injection R as <-; sat_inv;
      repeat match goal with H : satisfies _ (pass_on _ _) |- _ => apply pass_on_sat in H end;
      (split; [assumption|]);
      repeat match goal with H : satisfies _ _ |- _ => inversion H; subst; clear H end;
      rewrite ?Nat.add_0_r in *; split; try lra.
    all: match goal with
    | Nz : ?f ?c <> 0 |- _ =>
        apply (Rmult_eq_reg_r (f c)); [|exact Nz]; nra
    end. }
  destruct G as (G1 & G2 & G3). repeat split; try assumption.
  rewrite G2, G3. replace (m (f + 1)%nat) with (1 - m f) by lra. ring.
Qed.

Lemma routines_hub_last d n : forall rqs solved es r,
  routines (hub_routine d n) solved (rqs ++ [(r, None)]) = Some es ->
  In {| tgt := (d + r)%nat; opid := -1;
        srcs := map (Nat.add d) (solved ++ map fst rqs) |} es.
Proof.
  induction rqs as [|[p par] rqs IH]; intros solved es r R; cbn [app routines] in R.
  - cbn in R. destruct (n - length solved =? 1)%nat; [|discriminate].
    cbn in R. injection R as <-. left. now rewrite app_nil_r.
  - destruct (hub_routine d n solved (p, par)); [|discriminate].
    destruct (routines _ _ (rqs ++ _)) as [es'|] eqn:E; [|discriminate].
    injection R as <-. right.
    specialize (IH _ _ _ E). cbn [fst] in IH. rewrite <- app_assoc in IH. exact IH.
Qed.

Lemma total_perm m l l' : Permutation l l' -> total m l = total m l'.
Proof.
  induction 1; [reflexivity| | |congruence].
  - rewrite !total_cons; now rewrite IHPermutation.
  - rewrite !total_cons; lra.
Qed.

Lemma C11_hub_proof : forall d n rqs r es m,
  Permutation (map fst rqs ++ [r]) (seq 0 n) ->
  routines (hub_routine d n) [] (rqs ++ [(r, None)]) = Some es ->
  all_sat m es -> total m (seq d n) = 0.
Proof.
  intros d n rqs r es m P R S.
  pose proof (routines_hub_last _ _ _ _ _ _ R) as H. cbn [app] in H.
  apply S in H. inversion H as [|t s l E| | | | | | |]; subst.
  assert (T : total m (map (Nat.add d) (map fst rqs ++ [r])) = 0).
  { rewrite map_app. cbn [map].
    rewrite (total_perm m _ ((d + r)%nat :: map (Nat.add d) (map fst rqs)))
      by (symmetry; apply Permutation_cons_append).
    rewrite total_cons. rewrite <- H1. exact E. }
  rewrite <- T.
  apply total_perm. rewrite (Permutation_map (Nat.add d) P).
  replace (map (Nat.add d) (seq 0 n)) with (seq d n); [reflexivity|].
  clear. replace d with (d + 0)%nat at 1 by lia. generalize 0%nat.
  induction n as [|n IH]; intro k; [reflexivity|]. cbn. f_equal.
  rewrite <- IH. now rewrite Nat.add_succ_r.
Qed.

(** ** Split factors *)
Lemma clip_range ll ul cv : ll <= ul -> ll <= clip ll ul cv <= ul.
Proof. unfold clip; destruct (Rlt_dec cv ll), (Rlt_dec ul cv); lra. Qed.

Lemma clip_id ll ul cv : ll <= cv <= ul -> clip ll ul cv = cv.
Proof. unfold clip; destruct (Rlt_dec cv ll), (Rlt_dec ul cv); lra. Qed.

Lemma C11_split_proof : forall f c cvs m,
  valve_accepts c ->
  let m1 := fold_left (fun m cv => process_cv f c cv m) cvs (set_split f (v_start c) m) in
  m1 f + m1 (f + 1)%nat = 1 /\ 0 <= m1 f <= 1
  /\ (cvs <> [] -> v_ll c <= m1 f <= v_ul c
                   /\ (v_ll c <= last cvs 0 <= v_ul c -> m1 f = last cvs 0)).
Proof.
  intros f c cvs m (A & B & C & D) m1.
  assert (E : forall m, let m' := set_split f (v_start c) m in
                        m' f + m' (f + 1)%nat = 1 /\ 0 <= m' f <= 1).
  { intro; unfold set_split. cbn zeta. rewrite upd_eq, upd_ne, upd_eq by lia. lra. }
  destruct cvs as [|cv0 cvs0] eqn:Ecv using rev_ind.
  - subst m1; cbn. destruct (E m) as [E1 E2]. repeat split; try apply E1; try apply E2;
      congruence.
  - clear IHcvs0. subst m1. rewrite fold_left_app. cbn [fold_left]. cbv zeta.
    set (m2 := fold_left _ _ _). unfold process_cv, set_split.
    rewrite upd_eq, upd_ne, upd_eq by lia. rewrite last_last.
    pose proof (clip_range (v_ll c) (v_ul c) cv0 ltac:(lra)).
    repeat split; try lra. intro; apply clip_id; assumption.
Qed.

(** ** Parts inside a whole network *)
Lemma in_net : forall net es m m', Forall well_formed net -> dep_ordered net ->
  run_net net m = Some m' -> incl es net -> all_sat m' es.
Proof.
  intros net es m m' W D R I e He. apply (run_satisfies net m m' W D R). now apply I.
Qed.

Lemma factors_kept : forall net m m' f, Forall well_formed net -> dep_ordered net ->
  run_net net m = Some m' -> ~ In f (map tgt net) -> ~ In (f + 1)%nat (map tgt net) ->
  m f + m (f + 1)%nat = 1 -> m' f + m' (f + 1)%nat = 1.
Proof.
  intros. rewrite (run_frame net m m' f), (run_frame net m m' (f + 1)%nat); assumption.
Qed.

Lemma zero_opening : forall d f pp par1 par2 m, (p_src pp < d)%nat -> (d + 2 < f)%nat ->
  exists es, routines (pvalve_routine d f) [] [(1%nat, Some pp); (0%nat, par1); (2%nat, par2)]
             = Some es
  /\ Forall well_formed es /\ dep_ordered es
  /\ run_net es (set_split f 1 m) = None.
Proof.
  intros d f pp par1 par2 m A B. eexists. split; [reflexivity|].
  repeat split.
  - repeat constructor; unfold pass_on, well_formed; cbn; destruct (p_pos pp); exact I.
  - cbn. intros [E|[]]; lia.
  - cbn [tgt srcs pass_on]. intros e' [<-|[<-|[]]]; cbn; intuition lia.
  - cbn; intuition lia.
  - intros e' [<-|[]]; cbn; intuition lia.
  - cbn; intuition lia.
  - intros e' [].
  - cbn [run_net]. rewrite exec_value.
    2:{ unfold pass_on, well_formed; cbn; destruct (p_pos pp); exact I. }
    2:{ cbn; intuition lia. }
    unfold divisor, pass_on; cbn [opid srcs].
    assert (Ez : forall m1 : mem, m1 (f + 1)%nat = 0 ->
      exec {| tgt := (d + 0)%nat; opid := 5; srcs := [d + 1; f + 0; f + 1]%nat |} m1 = None).
    { intros m1 H. unfold exec; cbn [opid srcs tgt]. unfold ndiv.
      destruct (Req_EM_T (m1 (f + 1)%nat) 0); [reflexivity|contradiction]. }
    destruct (p_pos pp);
      (destruct (Req_EM_T 1 0) as [|_]; [lra|]);
      rewrite Ez; try reflexivity; cbn [tgt];
      unfold set_split; rewrite upd_ne by lia; rewrite upd_eq; lra.
Qed.
