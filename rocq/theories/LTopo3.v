(** Proofs about the topology analyser: the emitted relations reproduce every
    physically consistent flow distribution. *)
From Coq Require Import Reals ZArith List Bool Lra Lia Arith FunctionalExtensionality Permutation.
From Verif Require Import MNet SNet LNet MTopo STopo LTopo LTopo2.
Import ListNotations.
Local Open Scope nat_scope.

Definition all_ports (N : design) : list port :=
  flat_map (fun p => map (pair p) (seq 0 (nports (kd N p)))) (seq 0 (nparts N)).

Lemma all_ports_in N x : In x (all_ports N) <-> valid N x.
Proof.
  unfold all_ports. rewrite in_flat_map. split.
  - intros (p & Hp & Hx). apply in_map_iff in Hx. destruct Hx as (i & <- & Hi).
    apply in_seq in Hp. apply in_seq in Hi. split; cbn; lia.
  - destruct x as [p i]. intros [V1 V2]. cbn in *. exists p. split; [apply in_seq; lia|].
    apply in_map. apply in_seq. lia.
Qed.

(** Memory that shows the flows [phi]. *)
Definition decode (N : design) (m : mem) (phi : port -> R) : mem :=
  fun a => match find (fun x => own N x =? a) (all_ports N) with
           | Some x => phi x | None => m a end.

Section Sem.
Variables (N : design) (m : mem) (phi : port -> R).
Hypothesis (B : buildable N) (C : consistent N m phi).

Lemma same_cell x z : valid N x -> valid N z -> own N x = own N z -> phi x = phi z.
Proof.
  intros Vx Vz E. destruct (own_inj N x z B Vx Vz E) as [E1 E2].
  destruct x as [p i], z as [q k]. cbn in E1, E2. subst q. clear E.
  destruct Vx as [Hp Hi], Vz as [_ Hk]. cbn in Hp, Hi, Hk.
  destruct (kd N p) eqn:K; cbn [nports cellix] in *; try congruence.
  - destruct i as [|[|]], k as [|[|]]; try lia; try reflexivity;
      rewrite (c_pipe N m phi C p Hp K); reflexivity.
  - rewrite (c_pump N m phi C p i), (c_pump N m phi C p k) by assumption. reflexivity.
  - destruct (c_hex N m phi C p _ Hp K) as (H1 & H2 & _).
    destruct i as [|[|[|[|]]]], k as [|[|[|[|]]]]; try lia; cbn in E2; try discriminate;
      congruence.
Qed.

Lemma decode_own x : valid N x -> decode N m phi (own N x) = phi x.
Proof.
  intro V. unfold decode. destruct (find _ _) as [z|] eqn:F.
  - apply find_some in F. destruct F as [F1 F2]. apply Nat.eqb_eq in F2.
    apply all_ports_in in F1. now apply same_cell.
  - exfalso. pose proof (find_none _ _ F x (proj2 (all_ports_in N x) V)) as H. cbn in H.
    rewrite Nat.eqb_refl in H. discriminate.
Qed.

Lemma decode_factor p b : p < nparts N -> b < 2 ->
  decode N m phi (fcell N p + b) = m (fcell N p + b).
Proof.
  intros Hp Hb. unfold decode. destruct (find _ _) as [z|] eqn:F; [|reflexivity].
  apply find_some in F. destruct F as [F1 F2]. apply Nat.eqb_eq in F2.
  apply all_ports_in in F1. exfalso. apply (own_not_factor N z B F1).
  exists p, b. auto.
Qed.

Lemma decode_flat p i : p < nparts N -> i < nports (kd N p) -> cellix (kd N p) i = i ->
  decode N m phi (dcell N p + i) = phi (p, i).
Proof.
  intros Hp Hi E. rewrite <- (own_flat N p i E). apply decode_own. now split.
Qed.

Definition sem (st : topo) : Prop :=
  all_sat (decode N m phi) (out st)
  /\ (forall p a i, view st p = Some a -> p < nparts N -> i < 2 -> decode N m phi a = phi (p, i)).

Lemma decode_addr st y : inv N st -> sem st -> valid N y ->
  decode N m phi (addr_of N st y) = phi y.
Proof.
  intros I [_ S] V. unfold addr_of. destruct (view st (fst y)) as [a|] eqn:E.
  - destruct (i_view N st I _ _ E) as (K & _). destruct y as [p i]. destruct V as [V1 V2].
    cbn in *. rewrite K in V2. cbn in V2. now apply S.
  - now apply decode_own.
Qed.

Lemma fold_Rplus_perm (f : nat -> R) l l' : Permutation l l' ->
  fold_right Rplus 0%R (map f l) = fold_right Rplus 0%R (map f l').
Proof. induction 1; cbn; try lra; congruence. Qed.

Lemma hub_perm st p i b n : wf N st -> kd N p = KHub b n -> i < n ->
  is_solved st (p, i) = false -> S (length (solved st p)) = n ->
  Permutation (i :: solved st p) (seq 0 n).
Proof.
  intros W K Hi U L. apply unsolved_in in U. destruct (W p) as [W1 W2]. rewrite K in W2. cbn in W2.
  apply NoDup_Permutation_bis.
  - now constructor.
  - rewrite seq_length. cbn. lia.
  - intros k [<-|Hk]; apply in_seq; [lia|]. specialize (W2 k Hk). lia.
Qed.

Hypothesis (D : branches_open N m).

Lemma shape_sat st x e : inv N st -> sem st -> valid N x -> is_solved st x = false ->
  shape N st x (emit e) -> satisfies (decode N m phi) e.
Proof.
  intros I S V U Sh. set (M := decode N m phi).
  pose proof (decode_own x V) as Ex. fold M in Ex.
  destruct V as [V1 V2].
  assert (Hf : forall b, b < 2 -> M (fcell N (fst x) + b) = m (fcell N (fst x) + b))
    by (intros; now apply decode_factor).
  inversion Sh as [|z Z1 Z2 Z3 Z4 K|z b Z1 Z2 Z3 Z4 K E|y K Nil L Vy Sy P|y K L Vy Sy Fr Vv _ _ E|K H E|b K H H2 E
                 |K H H2 E|s K H H1 H2 E|s K H H1 H2 H3 E|b n K H E]; subst e; clear Sh.
  - now constructor.
  - pose proof (c_link N m phi C x y (conj V1 V2) L) as Hl.
    pose proof (decode_addr st y I S Vy) as Ey. fold M in Ey.
    unfold pass_on, cond. cbn [p_pos p_src].
    destruct (Bool.eqb _ _); cbn [negb].
    + constructor. unfold total. cbn. rewrite Ex, Ey. lra.
    + constructor. rewrite Ex, Ey. assumption.
  - assert (Fl : forall i, i < 3 -> M (dcell N (fst x) + i) = phi (fst x, i)).
    { intros i Hi. apply decode_flat; rewrite ?K; auto. }
    pose proof (c_conn N m phi C _ V1 K) as Hc.
    rewrite K in V2. cbn in V2. destruct x as [p i]. cbn [fst snd] in *.
    destruct i as [|[|[|]]]; try lia; cbn [filter Nat.eqb negb map]; constructor;
      unfold total; cbn [map fold_right]; rewrite Ex, !Fl by lia; lra.
  - constructor. rewrite Ex, Hf by lia.
    assert (M (dcell N (fst x) + 2) = phi (fst x, 2)) as ->
      by (apply decode_flat; rewrite ?K; auto).
    destruct x as [p i]. cbn [fst snd] in *. rewrite (c_valve N m phi C p b i) by assumption. ring.
  - constructor. rewrite Ex, Hf by lia.
    assert (M (dcell N (fst x) + 2) = phi (fst x, 2)) as ->
      by (apply decode_flat; rewrite ?K; auto).
    destruct x as [p i]. cbn [fst snd] in *. rewrite (c_pvalve N m phi C p i) by assumption. ring.
  - constructor.
    + rewrite Hf by lia. now apply D.
    + rewrite Ex, Hf by lia.
      assert (M (dcell N (fst x) + s) = phi (fst x, s)) as ->
        by (apply decode_flat; rewrite ?K; cbn; auto; lia).
      destruct x as [p i]. cbn [fst snd] in *. subst i.
      rewrite (c_pvalve N m phi C p s) by assumption. ring.
  - constructor.
    + rewrite Hf by lia. now apply D.
    + rewrite Ex, !Hf by lia.
      assert (M (dcell N (fst x) + s) = phi (fst x, s)) as ->
        by (apply decode_flat; rewrite ?K; cbn; auto; lia).
      destruct x as [p i]. cbn [fst snd] in *.
      rewrite (c_pvalve N m phi C p s), (c_pvalve N m phi C p i) by assumption. ring.
  - pose proof (b_hub N B _ _ _ V1 K) as Hn. destruct x as [p i]. cbn [fst snd] in *.
    assert (V2' : i < n) by (rewrite K in V2; exact V2).
    pose proof (hub_perm st p i b n (i_wf N st I) K V2' U H) as P.
    pose proof (c_hub N m phi C p b n V1 K) as Hc.
    rewrite <- (fold_Rplus_perm _ _ _ P) in Hc. cbn [map fold_right] in Hc.
    assert (T : total M (map (Nat.add (dcell N p)) (solved st p))
                = fold_right Rplus 0%R (map (fun k => phi (p, k)) (solved st p))).
    { unfold total. rewrite map_map. f_equal. apply map_ext_in. intros k Hk.
      apply decode_flat; rewrite ?K; auto.
      destruct (i_wf N st I p) as [_ W]. rewrite K in W. now apply W. }
    destruct (solved st p) as [|k r] eqn:Sp; [cbn in H; lia|].
    cbn [map] in T |- *. constructor. change (M (own N (p, i)) + total M ((dcell N p + k)%nat :: map (Nat.add (dcell N p)) r) = 0)%R. rewrite T, Ex. cbn [map] in Hc. exact Hc.
Qed.

Lemma sem_step st st' : inv N st -> sem st -> step N st st' -> sem st'.
Proof.
  intros I S St.
  destruct (step_shape N st st' B (i_wf N st I) (i_valve N st I) St) as (x & a & V & U & M & -> & Sh).
  clear St. split.
  - unfold record. cbn [out]. intros e He. apply in_app_iff in He. destruct He as [He|He].
    + now apply S.
    + assert (a_out a = [e]) as Ea.
      { inversion Sh; subst; cbn [a_out emit nothing] in *; try destruct He as [<-|[]]; try reflexivity;
        destruct He. }
      destruct (emit_props N st x a e B I V U Sh Ea) as (-> & _).
      now apply (shape_sat st x).
  - intros p v i Hv Hp Hi. unfold record in Hv. cbn [view] in Hv.
    destruct (Nat.eqb_spec p (fst x)) as [->|]; [|now apply (proj2 S)].
    destruct (a_view a) as [w|] eqn:AV; [|now apply (proj2 S)].
    injection Hv as <-. inversion Sh as [| | |y K Nil L Vy Sy P| | | | | | |]; subst; try discriminate.
    cbn in AV. injection AV as <-. rewrite (decode_addr st y I S Vy).
    pose proof (c_link N m phi C x y V L) as Hl.
    unfold cond in P. cbn in P. apply negb_true_iff in P. rewrite P in Hl. rewrite <- Hl.
    apply same_cell; [assumption|split; cbn; [assumption|rewrite K; exact Hi]|].
    unfold own, kind_of. cbn. now rewrite K.
Qed.

Lemma sem_steps st st' : inv N st -> sem st -> steps N st st' -> sem st'.
Proof.
  intros I S St. revert I S. induction St as [|a b c H1 H2 IH]; [tauto|].
  intros I S. apply IH; [eapply inv_step; eauto|eapply sem_step; eauto].
Qed.

Lemma sem_start : sem (start N).
Proof. split; [intros e []|discriminate]. Qed.

Lemma free_decode a : free N a -> decode N m phi a = m a.
Proof.
  intros (x & V & F & <-). rewrite decode_own by assumption. destruct x as [p i].
  destruct V as [V1 V2]. unfold freeport in F. cbn [fst snd] in *. unfold own, kind_of. cbn [fst snd].
  destruct F as [K|((b & K) & E & Di)].
  - rewrite K. cbn [cellix]. rewrite Nat.add_0_r. apply (c_pump N m phi C); rewrite ?K in V2; assumption.
  - rewrite K. cbn [cellix]. rewrite Di.
    destruct (c_hex N m phi C p b V1 K) as (_ & H2 & H3). specialize (H3 E).
    rewrite K in V2. cbn in V2.
    destruct i as [|[|[|[|]]]]; cbn in Di; try lia; try discriminate; congruence.
Qed.

Lemma tgt_settled st e : inv N st -> In e (out st) -> settled N st (tgt e).
Proof.
  intros I He. destruct (idle e) eqn:Id.
  - destruct (i_src N st I e (tgt e) He) as [H|H]; [|assumption|].
    + unfold idle in Id. destruct (srcs e) as [|s [|]]; try discriminate.
      apply andb_prop in Id. destruct Id as [_ Id]. apply Nat.eqb_eq in Id. now left.
    + destruct (i_tgt N st I e He) as (x & V & _ & E & _). rewrite E in H.
      now apply (own_not_factor N x B V) in H.
  - left. apply in_map. apply filter_In. now rewrite Id.
Qed.

(** The update gives every solved port its physical flow. *)
Lemma update_physical st : inv N st -> sem st ->
  exists m', run_net (out st) m = Some m'
  /\ (forall x, valid N x -> is_solved st x = true -> flow N st m' x = phi x)
  /\ (forall a, ~ In a (map tgt (out st)) -> m' a = m a).
Proof.
  intros I [S Vw]. set (M := decode N m phi).
  set (T := map tgt (essential (out st))).
  set (m2 := fun a => if in_dec Nat.eq_dec a T then M a else m a).
  assert (Hset : forall a, settled N st a -> m2 a = M a).
  { intros a H. unfold m2. destruct (in_dec Nat.eq_dec a T); [reflexivity|].
    destruct H as [H|H]; [contradiction|]. symmetry. now apply free_decode. }
  assert (Hfac : forall a, factor N a -> m2 a = M a).
  { intros a (p & b & Hp & Hb & ->). unfold m2.
    destruct (in_dec Nat.eq_dec _ T); [reflexivity|]. symmetry. now apply decode_factor. }
  assert (Hm2 : all_sat m2 (out st)).
  { intros e He. pose proof (S e He) as Se.
    assert (Ht : m2 (tgt e) = M (tgt e)) by (apply Hset; now apply tgt_settled).
    assert (Hs : forall a, In a (srcs e) -> m2 a = M a).
    { intros a Ha. destruct (i_src N st I e a He Ha); auto. }
    pose proof (satisfies_wf _ _ Se) as Wf.
    apply satisfies_value; [assumption|]. apply satisfies_value in Se; [|assumption].
    destruct Se as [S1 S2]. rewrite (divisor_ext e m2 M), (value_ext e m2 M) by assumption.
    split; [assumption|]. now rewrite Ht. }
  exists m2. split; [|split].
  - rewrite run_essential. apply run_complete.
    + apply I.
    + intros e He. apply Hm2. now apply essential_in.
    + intros a Ha. unfold m2. destruct (in_dec Nat.eq_dec a T) as [H|]; [|reflexivity].
      contradiction.
  - intros x V Sx. unfold flow, addr_of. destruct (view st (fst x)) as [a|] eqn:E.
    + destruct (i_view N st I _ _ E) as (K & _ & H). rewrite (Hset _ H).
      destruct x as [p i]. destruct V as [V1 V2]. cbn in *. rewrite K in V2. now apply Vw.
    + rewrite (Hset _ (i_own N st I x V Sx E)). now apply decode_own.
  - intros a Ha. unfold m2. destruct (in_dec Nat.eq_dec a T) as [H|]; [|reflexivity].
    exfalso. apply Ha. unfold T in H. apply in_map_iff in H. destruct H as (e & <- & He).
    apply in_map. now apply essential_in.
Qed.
End Sem.
