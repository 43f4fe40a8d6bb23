(** Designs given by lists, for examples. *)
From Coq Require Import Reals ZArith List Bool Lra Lia Arith.
From Verif Require Import MNet SNet LNet MTopo STopo LTopo LTopo2.
Import ListNotations.
Local Open Scope nat_scope.

Definition port_eqb (x y : port) : bool := ((fst x =? fst y) && (snd x =? snd y))%bool.
Lemma port_eqb_eq x y : port_eqb x y = true <-> x = y.
Proof.
  unfold port_eqb. destruct x as [a b], y as [c d]. cbn. rewrite andb_true_iff, !Nat.eqb_eq.
  split; [intros [-> ->]; reflexivity|intro H; now injection H].
Qed.

(** Connections given by a list of pairs. *)
Definition both (l : list (port * port)) : list (port * port) :=
  l ++ map (fun e => (snd e, fst e)) l.
Definition links (l : list (port * port)) (x : port) : option port :=
  match find (fun e => port_eqb (fst e) x) (both l) with
  | Some e => Some (snd e) | None => None end.

Lemma links_in l x y : links l x = Some y -> In (x, y) (both l).
Proof.
  unfold links. destruct (find _ _) as [[a b]|] eqn:F; [|discriminate].
  intro E. injection E as <-. apply find_some in F. destruct F as [F1 F2].
  apply port_eqb_eq in F2. cbn in F2. now subst.
Qed.

Lemma both_sym l x y : In (x, y) (both l) -> In (y, x) (both l).
Proof.
  unfold both. rewrite !in_app_iff, !in_map_iff. intros [H|([a b] & E & H)].
  - right. exists (x, y). auto.
  - cbn in E. injection E as -> ->. now left.
Qed.

Lemma nodup_fst {A} : forall (l : list (port * A)) x a b, NoDup (map fst l) ->
  In (x, a) l -> In (x, b) l -> a = b.
Proof.
  induction l as [|[c d] l IH]; intros x a b ND Ha Hb; [destruct Ha|].
  cbn in ND. inversion ND as [|? ? Nc ND']; subst.
  destruct Ha as [Ha|Ha], Hb as [Hb|Hb]; try congruence.
  - injection Ha as -> ->. exfalso. apply Nc. apply in_map_iff. now exists (x, b).
  - injection Hb as -> ->. exfalso. apply Nc. apply in_map_iff. now exists (x, a).
  - eauto.
Qed.

Lemma links_of l x y : NoDup (map fst (both l)) -> In (x, y) (both l) -> links l x = Some y.
Proof.
  intros ND H. destruct (links l x) as [z|] eqn:E.
  - apply links_in in E. f_equal. eapply nodup_fst; eauto.
  - unfold links in E. destruct (find _ _) eqn:F; [discriminate|].
    pose proof (find_none _ _ F _ H) as G. cbn in G.
    rewrite (proj2 (port_eqb_eq x x) eq_refl) in G. discriminate.
Qed.

Fixpoint nodupb (l : list port) : bool :=
  match l with [] => true | x :: r => (negb (existsb (port_eqb x) r) && nodupb r)%bool end.
Lemma nodupb_ok : forall l, nodupb l = true -> NoDup l.
Proof.
  induction l as [|x l IH]; cbn; [constructor|]. rewrite andb_true_iff, negb_true_iff.
  intros [H1 H2]. constructor; [|now apply IH]. intro H.
  rewrite <- not_true_iff_false in H1. apply H1. apply existsb_exists. exists x.
  split; [assumption|]. now apply port_eqb_eq.
Qed.

(** Ten cells are set apart for every part. *)
Definition built (ks : list kind) (ls : list (port * port)) (ext : list nat) : design :=
  {| kd := fun p => nth p ks KPipe; nparts := length ks; link := links ls;
     dcell := fun p => 10 * p; fcell := fun p => 10 * p + 5; lims := fun _ => None;
     numeric := fun _ => true; external := fun p => mem_nat p ext |}.

Definition small (k : kind) : bool :=
  match k with KHub _ n => ((2 <=? n) && (n <=? 5))%bool | _ => true end.
Definition port_ok (ks : list kind) (x : port) : bool :=
  ((fst x <? length ks) && (snd x <? nports (nth (fst x) ks KPipe)))%bool.

Lemma small_cells k : small k = true -> ncells k <= 5.
Proof.
  destruct k; cbn; try lia. rewrite andb_true_iff. intros [_ H]. apply Nat.leb_le in H. lia.
Qed.

Lemma built_ok ks ls ext : forallb small ks = true ->
  forallb (port_ok ks) (map fst (both ls)) = true -> nodupb (map fst (both ls)) = true ->
  buildable (built ks ls ext).
Proof.
  intros S P ND. apply nodupb_ok in ND. rewrite forallb_forall in S, P.
  assert (Sm : forall p, p < length ks -> ncells (nth p ks KPipe) <= 5).
  { intros p Hp. apply small_cells. apply S. now apply nth_In. }
  constructor; cbn [kd nparts link dcell fcell built].
  - intros x y H. apply links_of; [assumption|]. apply both_sym. now apply links_in.
  - intros x y H _. apply links_in, both_sym in H.
    specialize (P y ltac:(apply in_map_iff; exists (y, x); auto)).
    unfold port_ok in P. apply andb_prop in P. destruct P as [P1 P2].
    apply Nat.ltb_lt in P1. apply Nat.ltb_lt in P2. split; assumption.
  - intros p q c d Hp Hq Hc Hd E. pose proof (Sm p Hp). pose proof (Sm q Hq). lia.
  - intros p q b c Hp Hq Hb Hc E. pose proof (Sm q Hq). lia.
  - intros p b n Hp K. specialize (S _ (nth_In ks KPipe Hp)). rewrite K in S. unfold small in S.
    apply andb_prop in S. destruct S as [S _]. now apply Nat.leb_le in S.
Qed.
