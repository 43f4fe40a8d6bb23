(** Lemmas about connecting many ports at once and about names made of a prefix and a segment name. *)
From Coq Require Import List String Ascii Arith Bool Lia Permutation.
From Verif Require Import MPorts MModules.
Import ListNotations.
Open Scope list_scope.

Definition ends {A : Type} (l : list (A * A)) : list A := flat_map (fun c => [fst c; snd c]) l.

Lemma ends_length {A} (l : list (A * A)) : List.length (ends l) = 2 * List.length l.
Proof. induction l as [|[a b] l IH]; [reflexivity|]. change (ends ((a, b) :: l)) with (a :: b :: ends l). cbn [List.length]. rewrite IH. lia. Qed.

Lemma ends_app {A} (l k : list (A * A)) : ends (l ++ k) = ends l ++ ends k.
Proof. unfold ends. apply flat_map_app. Qed.

Lemma ends_map {A B} (f : A -> B) l : ends (map (fun c => (f (fst c), f (snd c))) l) = map f (ends l).
Proof.
  induction l as [|[a b] l IH]; [reflexivity|]. cbn [map fst snd].
  change (ends ((f a, f b) :: map (fun c => (f (fst c), f (snd c))) l))
    with (f a :: f b :: ends (map (fun c => (f (fst c), f (snd c))) l)).
  rewrite IH. reflexivity.
Qed.

Lemma nodup_fst {A} (l : list (A * A)) : NoDup (ends l) -> NoDup (map fst l).
Proof.
  induction l as [|[a b] l IH]; cbn; intro H; [constructor|].
  inversion H as [|? ? N1 H1]; subst. inversion H1 as [|? ? N2 H2]; subst. constructor; [|now apply IH].
  intro I. apply N1. right. apply in_map_iff in I. destruct I as ((x & y) & E & I). cbn in E. subst x.
  apply in_flat_map. exists (a, y). split; [assumption|left; reflexivity].
Qed.

Lemma request_new d a b : ~ In a (map fst d) -> request d a b = d ++ [(a, b)].
Proof.
  induction d as [|[x y] d IH]; cbn; intro H; [reflexivity|].
  destruct (pkey_eq x a) as [->|N]; [tauto|]. rewrite IH by tauto. reflexivity.
Qed.
Lemma requests_gen l : forall d, NoDup (map fst (d ++ l)) ->
  fold_left (fun d r => request d (fst r) (snd r)) l d = d ++ l.
Proof.
  induction l as [|[a b] l IH]; cbn; intros d H; [now rewrite app_nil_r|].
  rewrite request_new.
  - rewrite IH; rewrite <- app_assoc; [reflexivity|exact H].
  - rewrite map_app in H. cbn in H. apply NoDup_remove_2 in H. intro I. apply H. apply in_or_app. now left.
Qed.
Lemma requests_id l : NoDup (map fst l) -> requests l = l.
Proof. intro H. exact (requests_gen l [] H). Qed.

Lemma mem_true a l : In a l -> mem a l = true.
Proof. unfold mem. destruct (in_dec pkey_eq a l); tauto. Qed.
Lemma mem_false a l : ~ In a l -> mem a l = false.
Proof. unfold mem. destruct (in_dec pkey_eq a l); tauto. Qed.

Lemma connect_all_ok all : forall l s, NoDup (ends l) -> incl (ends l) all ->
  (forall x, In x (ends l) -> ~ In x (connected s)) ->
  exists s', connect_all all s l = Some s'
  /\ num_conn s' = num_conn s + 2 * List.length l
  /\ (forall a b, In (a, b) l -> link s' a = Some b /\ link s' b = Some a)
  /\ (forall x, ~ In x (ends l) -> link s' x = link s x).
Proof.
  induction l as [|[a b] l IH]; cbn [connect_all]; intros s ND I D.
  - exists s. split; [reflexivity|]. split; [cbn; lia|]. split; [intros ? ? []|reflexivity].
  - cbn in ND. inversion ND as [|? ? N1 H1]; subst. inversion H1 as [|? ? N2 H2]; subst.
    assert (Na : ~ In a (connected s)) by (apply D; cbn; auto).
    assert (Nb : ~ In b (connected s)) by (apply D; cbn; auto).
    unfold connect. rewrite (mem_false a (connected s)) by assumption. rewrite (mem_false b (connected s)) by assumption.
    rewrite !andb_false_r. rewrite (mem_true a all) by (apply I; cbn; auto). rewrite (mem_true b all) by (apply I; cbn; auto).
    set (s1 := {| link := _; connected := _; num_conn := _ |}).
    destruct (IH s1 H2) as (s' & E & Nn & L & O).
    + intros x Hx. apply I. cbn. auto.
    + intros x Hx J. cbn [connected s1] in J. apply in_app_or in J. destruct J as [J|J].
      * revert J. apply D. cbn. auto.
      * apply filter_In in J. destruct J as [J _]. cbn in J. destruct J as [<-|[<-|[]]].
        -- apply N1. cbn. auto.
        -- apply N2. exact Hx.
    + exists s'. split; [exact E|]. split; [rewrite Nn; cbn; lia|]. split.
      * intros x y [J|J]; [|now apply L]. injection J as <- <-.
        assert (nab : a <> b) by (intros ->; apply N1; now left).
        assert (xa : ~ In a (ends l)) by (intro J; apply N1; now right).
        rewrite (O a xa), (O b N2). cbn [link s1]. unfold upd.
        destruct (pkey_eq a b); [contradiction|]. destruct (pkey_eq a a); [|contradiction].
        destruct (pkey_eq b b); [|contradiction]. auto.
      * intros x Hx. cbn in Hx. rewrite O by (intro J; apply Hx; auto). cbn [link s1]. unfold upd.
        destruct (pkey_eq x b) as [->|]; [exfalso; apply Hx; auto|].
        destruct (pkey_eq x a) as [->|]; [exfalso; apply Hx; auto|]. reflexivity.
Qed.

(** Connections that use every port exactly once. *)
Lemma init_ok all l : NoDup all -> Permutation (ends l) all ->
  exists s, init_connections all l = Some s /\ control_allowed all s = true
  /\ (forall a b, In (a, b) l -> link s a = Some b /\ link s b = Some a).
Proof.
  intros ND P. assert (NE : NoDup (ends l)) by (eapply Permutation_NoDup; [apply Permutation_sym; exact P|exact ND]).
  destruct (connect_all_ok all l net0 NE) as (s & E & Nn & L & _).
  - intros x Hx. now apply (Permutation_in x P).
  - intros x _ [].
  - exists s. unfold init_connections. rewrite requests_id by now apply nodup_fst. rewrite E.
    replace (unconnected all s) with (@nil pkey).
    + split; [reflexivity|]. split; [|assumption]. unfold control_allowed. rewrite Nn. cbn [num_conn net0].
      rewrite <- (Permutation_length P), ends_length. apply Nat.eqb_refl.
    + symmetry. unfold unconnected. assert (A : forall x, In x all -> exists y, link s x = Some y).
      { intros x Hx. apply (Permutation_in x (Permutation_sym P)) in Hx. apply in_flat_map in Hx.
        destruct Hx as ((a & b) & Hc & Hx). destruct (L a b Hc) as [La Lb]. cbn in Hx.
        destruct Hx as [<-|[<-|[]]]; eauto. }
      assert (B : forall k, incl k all ->
                filter (fun a => match link s a with Some _ => false | None => true end) k = []).
      { induction k as [|x k IH]; intro I; cbn; [reflexivity|].
        destruct (A x (I x (or_introl eq_refl))) as [y ->]. apply IH. intros z Hz. apply I. now right. }
      apply B. apply incl_refl.
Qed.

(** * Deciding permutations *)
Section PermB.
  Context {A : Type} (dec : forall a b : A, {a = b} + {a <> b}).
  Fixpoint take_out (x : A) (l : list A) : option (list A) :=
    match l with
    | [] => None
    | y :: l => if dec y x then Some l else match take_out x l with Some k => Some (y :: k) | None => None end
    end.
  Fixpoint permb (l k : list A) : bool :=
    match l with
    | [] => match k with [] => true | _ => false end
    | x :: l => match take_out x k with Some k => permb l k | None => false end
    end.
  Lemma take_out_ok x : forall l k, take_out x l = Some k -> Permutation l (x :: k).
  Proof.
    induction l as [|y l IH]; cbn; intros k E; [discriminate|].
    destruct (dec y x) as [->|]; [injection E as <-; apply Permutation_refl|].
    destruct (take_out x l) as [j|]; [|discriminate]. injection E as <-.
    rewrite (IH j eq_refl). apply perm_swap.
  Qed.
  Lemma permb_ok : forall l k, permb l k = true -> Permutation l k.
  Proof.
    induction l as [|x l IH]; cbn; intros k E; [destruct k; [constructor|discriminate]|].
    destruct (take_out x k) as [j|] eqn:T; [|discriminate].
    rewrite (take_out_ok x k j T). constructor. now apply IH.
  Qed.
End PermB.

Definition endp_eq : forall a b : endp, {a = b} + {a <> b}.
Proof. decide equality; (apply string_dec || apply Nat.eq_dec). Defined.

(** * Ports of several parts *)
Lemma ports_nodup (l : list (string * list string)) : NoDup (map fst l) -> Forall (fun x => NoDup (snd x)) l ->
  NoDup (flat_map (fun x => map (Port (fst x)) (snd x)) l).
Proof.
  induction l as [|[n qs] l IH]; cbn; intros ND F; [constructor|].
  inversion ND as [|? ? N1 H1]; subst. inversion F as [|? ? F1 F2]; subst. cbn in F1.
  assert (D : forall q, ~ In (Port n q) (flat_map (fun x => map (Port (fst x)) (snd x)) l)).
  { intros q I. apply in_flat_map in I. destruct I as ((n' & qs') & I & J). apply in_map_iff in J.
    destruct J as (q' & E & _). injection E as -> _. apply N1. apply in_map_iff. now exists (n, qs'). }
  specialize (IH H1 F2). clear ND F H1 F2 N1.
  induction qs as [|q qs IHq]; cbn; [exact IH|]. inversion F1; subst. constructor.
  - intro I. apply in_app_or in I. destruct I as [I|I]; [|now apply D in I].
    apply in_map_iff in I. destruct I as (q' & E & I). injection E as <-. contradiction.
  - now apply IHq.
Qed.

Lemma nodup_app {A} (l k : list A) : NoDup l -> NoDup k -> (forall x, In x l -> ~ In x k) -> NoDup (l ++ k).
Proof.
  induction l as [|x l IH]; cbn; intros H1 H2 D; [assumption|]. inversion H1; subst. constructor.
  - intro I. apply in_app_or in I. destruct I as [I|I]; [contradiction|]. revert I. apply D. now left.
  - apply IH; auto.
Qed.

Lemma flat_map_split {A B} (f g : A -> list B) l :
  Permutation (flat_map (fun x => f x ++ g x) l) (flat_map f l ++ flat_map g l).
Proof.
  induction l as [|x l IH]; cbn; [constructor|]. rewrite IH. rewrite <- !app_assoc. apply Permutation_app_head.
  rewrite !app_assoc. apply Permutation_app_tail. apply Permutation_app_comm.
Qed.
Lemma flat_map_perm {A B} (f g : A -> list B) l : (forall x, In x l -> Permutation (f x) (g x)) ->
  Permutation (flat_map f l) (flat_map g l).
Proof.
  induction l as [|x l IH]; cbn; intro H; [constructor|]. apply Permutation_app; [apply H; now left|].
  apply IH. auto.
Qed.
Lemma flat_map_map {A B C} (f : B -> list C) (g : A -> B) l : flat_map f (map g l) = flat_map (fun x => f (g x)) l.
Proof. induction l; cbn; congruence. Qed.
Lemma flat_map_flat {A B C} (f : B -> list C) (g : A -> list B) l :
  flat_map f (flat_map g l) = flat_map (fun x => flat_map f (g x)) l.
Proof. induction l as [|x l IH]; cbn; [reflexivity|]. now rewrite flat_map_app, IH. Qed.
Lemma map_flat {A B C} (f : B -> C) (g : A -> list B) l : map f (flat_map g l) = flat_map (fun x => map f (g x)) l.
Proof. induction l as [|x l IH]; cbn; [reflexivity|]. now rewrite map_app, IH. Qed.
Lemma map_nth_all {A} (l : list A) d : map (fun k => nth k l d) (seq 0 (List.length l)) = l.
Proof.
  induction l as [|x l IH]; cbn; [reflexivity|]. f_equal. rewrite <- seq_shift, map_map. exact IH.
Qed.

(** * Names *)
Open Scope string_scope.
Fixpoint has (c : ascii) (s : string) : bool :=
  match s with EmptyString => false | String x s => (Ascii.eqb x c || has c s)%bool end.
(** What remains of [s] after the prefix [p]. *)
Fixpoint strip (p s : string) : option string :=
  match p, s with
  | EmptyString, s => Some s
  | String a p, String b s => if Ascii.eqb a b then strip p s else None
  | String _ _, EmptyString => None
  end.
Lemma strip_app p s r : strip p s = Some r -> s = (p ++ r)%string.
Proof.
  revert s. induction p as [|a p IH]; cbn; intros s E; [congruence|]. destruct s as [|b s]; [discriminate|].
  destruct (Ascii.eqb_spec a b) as [->|]; [|discriminate]. now rewrite (IH s E).
Qed.
Lemma has_app c s t : has c (s ++ t) = (has c s || has c t)%bool.
Proof. induction s as [|x s IH]; cbn; [reflexivity|]. now rewrite IH, orb_assoc. Qed.
Lemma app_split : forall p1 p2 s1 s2, (p1 ++ s1)%string = (p2 ++ s2)%string ->
  (exists r, strip p1 p2 = Some r /\ s1 = (r ++ s2)%string) \/ (exists r, strip p2 p1 = Some r /\ s2 = (r ++ s1)%string).
Proof.
  induction p1 as [|a p1 IH]; intros [|b p2] s1 s2 E; cbn in *.
  - left. exists ""%string. auto.
  - left. exists (String b p2). auto.
  - right. exists (String a p1). auto.
  - injection E as <- E. destruct (IH p2 s1 s2 E) as [(r & H1 & H2)|(r & H1 & H2)]; rewrite Ascii.eqb_refl; [left|right]; eauto.
Qed.
Lemma app_length s t : String.length (s ++ t) = String.length s + String.length t.
Proof. induction s; cbn; congruence. Qed.
Lemma app_cancel : forall s t u, (s ++ u)%string = (t ++ u)%string -> s = t.
Proof.
  intros s t u E. destruct (app_split s t u u E) as [(r & H & L)|(r & H & L)];
    (assert (Z : String.length r = 0) by (apply (f_equal String.length) in L; rewrite app_length in L; lia));
    destruct r; try discriminate Z; apply strip_app in H; rewrite H;
    clear; [induction s|induction t]; cbn; congruence.
Qed.
(** Prefixes that can be told apart when segment names contain no underscore. *)
Definition apart (p q : string) : bool :=
  match strip p q with Some EmptyString => true | Some r => has "_" r | None =>
  match strip q p with Some EmptyString => true | Some r => has "_" r | None => true end end.
Lemma apart_ok p q s t : apart p q = true -> has "_" s = false -> has "_" t = false ->
  (p ++ s)%string = (q ++ t)%string -> s = t.
Proof.
  intros A Hs Ht E. unfold apart in A. destruct (app_split p q s t E) as [(r & H & L)|(r & H & L)].
  - rewrite H in A. destruct r as [|c r]; [exact L|]. rewrite L, has_app, A in Hs. discriminate.
  - destruct (strip p q) as [k|] eqn:K.
    + apply strip_app in H, K.
      assert (Z : String.length r = 0).
      { apply (f_equal String.length) in H, K. rewrite app_length in H, K. lia. }
      destruct r; [now symmetry|discriminate].
    + rewrite H in A. destruct r as [|c r]; [now symmetry|]. rewrite L, has_app, A in Ht. discriminate.
Qed.
