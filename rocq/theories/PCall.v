(** * C169, C170: calls within the package bind their arguments, and each
    quantity goes to the parameter it is meant for. *)
From Coq Require Import List Bool String Arith PArith Lia.
From Verif Require Import MCall MSrcCalls.
Import ListNotations.
Local Open Scope string_scope.

(** ** When the arguments of a call can be bound *)

(** Parameter [p] is given by one of [n] positional arguments or by keyword. *)
Definition by_position (s : sig) (n : nat) (p : string) : Prop :=
  exists i, (i < n)%nat /\ nth_error (s_pos s) i = Some p.

(** [n] positional arguments and keywords [kws] fit signature [s]: there is a
    place for each, no parameter is given twice, none without default is
    missing. *)
Definition fits (s : sig) (n : nat) (kws : list string) : Prop :=
  ((n <= List.length (s_pos s))%nat \/ s_star s = true) /\
  (forall k, In k kws -> In k (parameters s) \/ s_dstar s = true) /\
  NoDup kws /\
  (forall k, In k kws -> ~ by_position s n k) /\
  (forall p, In p (required s) -> by_position s n p \/ In p kws).

Lemma mem_In : forall x l, mem x l = true <-> In x l.
Proof.
  intros x l. unfold mem. rewrite existsb_exists. split.
  - intros (y & H & E). apply String.eqb_eq in E. now subst.
  - intros H. exists x. split; [exact H|apply String.eqb_refl].
Qed.

Lemma firstn_by_position : forall s n p, In p (firstn n (s_pos s)) <-> by_position s n p.
Proof.
  intros s n p. unfold by_position. split.
  - intros H. apply In_nth_error in H. destruct H as (i & H).
    assert (L : (i < List.length (firstn n (s_pos s)))%nat) by (apply nth_error_Some; congruence).
    rewrite firstn_length in L. exists i. split; [lia|].
    rewrite <- H. clear H. revert n L. generalize (s_pos s). induction i as [|i IH]; intros l n L.
    + destruct n; [cbn in L; lia|]. now destruct l.
    + destruct n; [lia|]. destruct l; cbn in *; [lia|]. apply IH. lia.
  - intros (i & L & H). revert n L H. generalize (s_pos s). induction i as [|i IH]; intros l n L H.
    + destruct l; [discriminate|]. destruct n; [lia|]. left. now injection H.
    + destruct l; [discriminate|]. destruct n; [lia|]. right. cbn in H. apply (IH l n); [lia|exact H].
Qed.

(** The keyword pass ends with the places filled at the beginning and the
    parameters named, each once. *)
Lemma keywords_spec : forall params d kws filled extra,
  (forall f, keywords params d filled extra kws = Some f ->
     (forall x, In x f <-> In x filled \/ (In x kws /\ In x params)) /\
     (forall k, In k kws -> In k params \/ d = true) /\ NoDup kws /\
     (forall k, In k kws -> In k params -> ~ In k filled) /\
     (forall k, In k kws -> ~ In k params -> ~ In k extra)) /\
  ((forall k, In k kws -> In k params \/ d = true) -> NoDup kws ->
   (forall k, In k kws -> In k params -> ~ In k filled) ->
   (forall k, In k kws -> ~ In k params -> ~ In k extra) ->
   keywords params d filled extra kws <> None).
Proof.
  intros params d kws. induction kws as [|k t IH]; intros filled extra.
  - split.
    + cbn. intros f E. injection E as <-. repeat split; try tauto; try constructor.
    + cbn. discriminate.
  - cbn [keywords]. destruct (mem k params) eqn:MP.
    + apply mem_In in MP. destruct (mem k filled) eqn:MF.
      * apply mem_In in MF. split; [discriminate|]. intros _ _ H _. exfalso. apply (H k); cbn; auto.
      * assert (NF : ~ In k filled) by (rewrite <- mem_In; congruence).
        destruct (IH (k :: filled) extra) as [A B]. split.
        -- intros f E. destruct (A f E) as (F & P & N & C & X). repeat split.
           ++ intros I. apply F in I. destruct I as [[<-|I]|[I J]]; [right; cbn; auto|now left|right; cbn; auto].
           ++ intros [I|[[<-|I] J]]; apply F; cbn; auto.
           ++ intros x [<-|I]; [now left|now apply P].
           ++ constructor; [|exact N]. intros I. apply (C k I MP). now left.
           ++ intros x [<-|I] J; [exact NF|]. intros K. apply (C x I J). now right.
           ++ intros x [<-|I] J; [contradiction|now apply X].
        -- intros P N C X. apply B.
           ++ intros x I. apply P. now right.
           ++ now inversion N.
           ++ intros x I J [<-|K]; [inversion N; contradiction|]. apply (C x); [now right|exact J|exact K].
           ++ intros x I J. apply X; [now right|exact J].
    + assert (NP : ~ In k params) by (rewrite <- mem_In; congruence). destruct d eqn:D.
      * destruct (mem k extra) eqn:ME.
        -- apply mem_In in ME. split; [discriminate|]. intros _ _ _ X. exfalso. apply (X k); cbn; auto.
        -- assert (NE : ~ In k extra) by (rewrite <- mem_In; congruence).
           destruct (IH filled (k :: extra)) as [A B]. split.
           ++ intros f E. destruct (A f E) as (F & P & N & C & X). repeat split.
              ** intros I. apply F in I. destruct I as [I|[I J]]; [now left|right; cbn; auto].
              ** intros [I|[[<-|I] J]]; apply F; [now left|contradiction|now right].
              ** intros x _. now right.
              ** constructor; [|exact N]. intros I. apply (X k I NP). now left.
              ** intros x [<-|I] J; [contradiction|now apply C].
              ** intros x [<-|I] J; [exact NE|]. intros K. apply (X x I J). now right.
           ++ intros P N C X. apply B.
              ** intros x I. now right.
              ** now inversion N.
              ** intros x I J. apply C; [now right|exact J].
              ** intros x I J [<-|K]; [inversion N; contradiction|]. apply (X x); [now right|exact J|exact K].
      * split; [discriminate|]. intros P. exfalso. destruct (P k); [now left|contradiction|discriminate].
Qed.

Lemma required_parameters : forall s p, In p (required s) -> In p (parameters s).
Proof.
  intros [pos o a k d] p. unfold required, parameters. cbn. rewrite !in_app_iff. intros [H|H].
  - left. generalize dependent (List.length pos - o)%nat. intros n H.
    rewrite <- (firstn_skipn n pos). apply in_or_app. now left.
  - right. apply in_map_iff in H. destruct H as (x & E & H). apply filter_In in H.
    apply in_map_iff. exists x. tauto.
Qed.

(** The procedure of the Python reference accepts exactly the calls that fit. *)
Theorem C169_binding : forall s n kws, bind_args s n kws = true <-> fits s n kws.
Proof.
  intros s n kws. unfold bind_args, fits.
  destruct (keywords_spec (parameters s) (s_dstar s) kws (firstn n (s_pos s)) []) as [A B].
  destruct ((Nat.leb n (List.length (s_pos s)) || s_star s)%bool) eqn:G.
  - apply orb_true_iff in G. rewrite Nat.leb_le in G.
    destruct (keywords (parameters s) (s_dstar s) (firstn n (s_pos s)) [] kws) as [f|] eqn:K.
    + destruct (A f eq_refl) as (F & P & N & C & _). rewrite forallb_forall. split.
      * intros R. repeat split; auto.
        -- intros k I BP. destruct (P k I) as [J|J].
           ++ apply (C k I J). now apply firstn_by_position.
           ++ assert (PP : In k (parameters s)).
              { apply in_or_app. left. destruct BP as (i & _ & E). now apply nth_error_In in E. }
              apply (C k I PP). now apply firstn_by_position.
        -- intros p Q. specialize (R p Q). apply mem_In in R. apply F in R.
           destruct R as [R|[R _]]; [left; now apply firstn_by_position|now right].
      * intros (_ & _ & _ & _ & R) p Q. apply mem_In. apply F. destruct (R p Q) as [H|H].
        -- left. now apply firstn_by_position.
        -- right. split; [exact H|now apply required_parameters].
    + split; [discriminate|]. intros (_ & P & N & C & _). exfalso. apply B; auto.
      intros k I J H. apply (C k I). now apply firstn_by_position.
  - split; [discriminate|]. intros ([H|H] & _); apply orb_false_iff in G; destruct G as [G1 G2].
    + apply Nat.leb_gt in G1. lia.
    + congruence.
Qed.
Print Assumptions C169_binding.

(** ** All calls of the package *)

(** A method is called like the function with the object as first argument. *)
Theorem C169_bound : forall p0 ps o a k d n kws, (o <= List.length ps)%nat -> ~ In p0 (parameters (Sig ps o a k d)) -> ~ In p0 kws ->
  (fits (without_first (Sig (p0 :: ps) o a k d)) n kws <-> fits (Sig (p0 :: ps) o a k d) (S n) kws).
Proof.
  intros p0 ps o a k d n kws O NP NK. cbn [without_first tl]. rewrite Nat.min_l by exact O.
  assert (B : forall p, p <> p0 -> (by_position (Sig ps o a k d) n p <-> by_position (Sig (p0 :: ps) o a k d) (S n) p)).
  { intros p Q. unfold by_position. cbn [s_pos]. split.
    - intros (i & L & E). exists (S i). split; [lia|exact E].
    - intros ([|i] & L & E); cbn in E; [congruence|]. exists i. split; [lia|exact E]. }
  assert (R : required (Sig (p0 :: ps) o a k d) = p0 :: required (Sig ps o a k d)).
  { unfold required. cbn [s_pos s_opt s_kwo List.length]. rewrite Nat.sub_succ_l by exact O. reflexivity. }
  assert (RP : forall p, In p (required (Sig ps o a k d)) -> p <> p0).
  { intros p I ->. apply NP. unfold parameters. unfold required in I. cbn [s_pos s_opt s_kwo] in *. apply in_app_iff in I. apply in_or_app.
    destruct I as [I|I]; [left; rewrite <- (firstn_skipn (List.length ps - o) ps); apply in_or_app; now left|].
    right. apply in_map_iff in I. destruct I as (x & E & I). apply filter_In in I. apply in_map_iff. exists x. tauto. }
  unfold fits. rewrite R. cbn [s_pos s_star s_dstar s_opt s_kwo List.length]. split.
  - intros (A & K & ND & P & Q). split; [destruct A; [left; lia|now right]|]. split; [|split; [exact ND|split]].
    + intros x I. destruct (K x I) as [J|J]; [left; unfold parameters in *; cbn [s_pos s_kwo] in *; now right|now right].
    + intros x I J. apply (P x I). apply B; [|exact J]. intros ->. now apply NK.
    + intros p [<-|I]; [left; exists 0%nat; split; [lia|reflexivity]|]. destruct (Q p I) as [J|J]; [|now right].
      left. apply B; [now apply RP|exact J].
  - intros (A & K & ND & P & Q). split; [destruct A; [left; lia|now right]|]. split; [|split; [exact ND|split]].
    + intros x I. destruct (K x I) as [J|J]; [|now right]. left. unfold parameters in *. cbn [s_pos s_kwo List.app] in *.
      destruct J as [->|J]; [now apply NK in I|exact J].
    + intros x I J. apply (P x I). apply B; [|exact J]. intros ->. now apply NK.
    + intros p I. destruct (Q p (or_intror I)) as [J|J]; [|now right]. left. apply B; [now apply RP|exact J].
Qed.
Print Assumptions C169_bound.
(** All methods of the package have such a first parameter. *)
Definition object_first (s : sig) : bool :=
  match s with
  | Sig (p0 :: ps) o a k d => Nat.leb o (List.length ps) && negb (mem p0 (parameters (Sig ps o a k d)))
  | _ => false
  end.
Theorem C169_methods : forall c n s, In c classes -> In (n, (false, s)) (c_methods c) ->
  exists p0 ps o a k d, s = Sig (p0 :: ps) o a k d /\
    forall m kws, ~ In p0 kws -> (bind_args (without_first s) m kws = true <-> fits s (S m) kws).
Proof.
  assert (A : forallb (fun c => forallb (fun x => fst (snd x) || object_first (snd (snd x))) (c_methods c)) classes = true)
    by (vm_compute; reflexivity).
  intros c n s C I. rewrite forallb_forall in A. specialize (A c C). rewrite forallb_forall in A. specialize (A _ I). cbn in A.
  destruct s as [[|p0 ps] o a k d]; [discriminate|]. cbn [object_first] in A. apply andb_true_iff in A. destruct A as [O M].
  apply Nat.leb_le in O. apply negb_true_iff in M. exists p0, ps, o, a, k, d. split; [reflexivity|]. intros m kws NK.
  rewrite C169_binding. apply C169_bound; [exact O| |exact NK]. intros J. apply mem_In in J. congruence.
Qed.
Print Assumptions C169_methods.

Definition the_targets := targets modules classes.

(** A call with [*x] or [**x]: for some contents. *)
Definition can_bind (t : site) (s : sig) : Prop :=
  exists m ks, (t_star t = false -> m = 0%nat) /\ (t_dstar t = false -> ks = []) /\
    fits s (List.length (t_pos t) + m) (List.app (map fst (t_kws t)) ks).

Definition label := (string * string * positive)%type.
Definition where_ (t : site) : label := (t_mod t, t_fun t, t_line t).
Definition label_eqb (a b : label) : bool :=
  let '(a1, a2, a3) := a in let '(b1, b2, b3) := b in
  (String.eqb a1 b1 && String.eqb a2 b2 && Pos.eqb a3 b3)%bool.
Lemma label_eqb_eq : forall a b, label_eqb a b = true <-> a = b.
Proof.
  intros [[a1 a2] a3] [[b1 b2] b3]. unfold label_eqb. rewrite !andb_true_iff, !String.eqb_eq, Pos.eqb_eq.
  split; [intros [[-> ->] ->]; reflexivity|intros E; injection E; auto].
Qed.
Definition listed (l : label) (ls : list label) : bool := existsb (label_eqb l) ls.
Lemma listed_In : forall l ls, listed l ls = true <-> In l ls.
Proof.
  intros l ls. unfold listed. rewrite existsb_exists. split.
  - intros (y & H & E). apply label_eqb_eq in E. now subst.
  - intros H. exists l. split; [exact H|now apply label_eqb_eq].
Qed.

(** Calls of methods that only the derived classes have: for objects of these
    classes themselves there is no function to call. *)
Definition for_derived : list (label * string) := [
  ("controls", "Controls.ctrl", 893%positive, "Controls");
  ("simenv", "SimEnv._recursive_topology", 2407%positive, "SimEnv");
  ("simenv", "SimEnv._recursive_topology", 2407%positive, "NetPlotter");
  ("simenv", "SimEnv._recursive_topology", 2417%positive, "SimEnv");
  ("simenv", "SimEnv._recursive_topology", 2417%positive, "NetPlotter");
  ("simenv", "SimEnv._recursive_topology", 2433%positive, "SimEnv");
  ("simenv", "SimEnv._recursive_topology", 2433%positive, "NetPlotter");
  ("simenv", "SimEnv._recursive_topology", 2449%positive, "SimEnv");
  ("simenv", "SimEnv._recursive_topology", 2449%positive, "NetPlotter")].

(** Calls that never work. *)
Definition failing : list label := [
  ("parts/pipe2D", "Pipe2D.get_diff", 637%positive);
  ("parts/pipe2D", "Pipe2D.get_diff", 702%positive);
  ("parts/pipe2D", "Pipe2D.get_diff", 711%positive)].

Definition search (t : site) (s : sig) : bool :=
  let n := List.length (t_pos t) in
  let kws := map fst (t_kws t) in
  existsb (fun m =>
    bind_args s (n + m)
      (List.app kws (if t_dstar t
                     then filter (fun p => negb (mem p (List.app kws (firstn (n + m) (s_pos s))))) (required s)
                     else [])))
    (if t_star t then seq 0 (S (List.length (s_pos s))) else [0%nat]).

Lemma search_can_bind : forall t s, search t s = true -> can_bind t s.
Proof.
  intros t s H. unfold search in H. apply existsb_exists in H. destruct H as (m & M & B).
  apply C169_binding in B. exists m. eexists. split; [|split; [|exact B]].
  - intros E. rewrite E in M. destruct M as [M|[]]. now symmetry.
  - intros E. now rewrite E.
Qed.

Definition ok_call (t : site) : bool :=
  (listed (where_ t) failing ||
   negb (match the_targets t with [] => true | _ => false end) &&
   forallb (fun x => match snd x with
                     | Some s => search t s
                     | None => existsb (fun e => label_eqb (fst e) (where_ t) && String.eqb (snd e) (fst x)) for_derived
                     end) (the_targets t))%bool.

Lemma calls_checked : forallb ok_call sites = true.
Proof. vm_cast_no_check (eq_refl true). Qed.

(** Every call of the package to a function or class of the package, of a
    method on [self] or of a method of the base class -- for every class the
    object may have -- finds its function, and the arguments given fit its
    parameters; apart from the calls listed as failing and the methods only
    derived classes have. *)
Theorem C169_calls : forall t c os, In t sites -> ~ In (where_ t) failing -> In (c, os) (the_targets t) ->
  (exists s, os = Some s /\ can_bind t s) \/ (os = None /\ In (where_ t, c) for_derived).
Proof.
  intros t c os T F H. pose proof calls_checked as K. rewrite forallb_forall in K. specialize (K _ T).
  unfold ok_call in K. apply orb_true_iff in K. destruct K as [K|K].
  { exfalso. apply F. now apply listed_In. }
  apply andb_true_iff in K. destruct K as [_ K]. rewrite forallb_forall in K. specialize (K _ H). cbn [fst snd] in K.
  destruct os as [s|].
  - left. exists s. split; [reflexivity|now apply search_can_bind].
  - right. split; [reflexivity|]. apply existsb_exists in K. destruct K as ((l & d) & I & E).
    apply andb_true_iff in E. destruct E as [E1 E2]. apply label_eqb_eq in E1. apply String.eqb_eq in E2.
    cbn [fst snd] in *. now subst.
Qed.
Print Assumptions C169_calls.

(** There is something to call, and what is called without [*x] and [**x] is
    called with exactly the arguments written. *)
Theorem C169_targets : forall t, In t sites -> ~ In (where_ t) failing -> the_targets t <> [] /\
  (forall c s, In (c, Some s) (the_targets t) -> t_star t = false -> t_dstar t = false ->
     fits s (List.length (t_pos t)) (map fst (t_kws t))).
Proof.
  intros t T F. split.
  - pose proof calls_checked as K. rewrite forallb_forall in K. specialize (K _ T).
    unfold ok_call in K. apply orb_true_iff in K. destruct K as [K|K].
    { exfalso. apply F. now apply listed_In. }
    apply andb_true_iff in K. destruct K as [K _]. intros E. rewrite E in K. discriminate.
  - intros c s H S D. destruct (C169_calls t c (Some s) T F H) as [(s' & E & m & ks & M & KS & B)|[E _]]; [|discriminate].
    injection E as <-. rewrite (M S), (KS D), app_nil_r, Nat.add_0_r in B. exact B.
Qed.
Print Assumptions C169_targets.

(** The size of the tables, and two calls among them: a solver step of the
    heated pipe with 63 keyword arguments, and a method call that may run on
    objects of 15 classes. *)
Example C169_size : List.length sites = 528%nat /\ List.length (flat_map the_targets sites) = 1330%nat.
Proof. vm_compute. split; reflexivity. Qed.

Example C169_example :
  exists t, In t sites /\ where_ t = ("simenv", "SimEnv._recursive_topology", 2449%positive) /\
    List.length (the_targets t) = 16%nat /\ ~ In (where_ t) failing.
Proof.
  destruct (find (fun t => label_eqb (where_ t) ("simenv", "SimEnv._recursive_topology", 2449%positive) && t_dstar t)%bool sites)
    as [t|] eqn:E; [|vm_compute in E; discriminate].
  pose proof (find_some _ _ E) as [I L]. apply andb_true_iff in L. destruct L as [L _].
  apply label_eqb_eq in L. exists t. repeat split; try assumption.
  - vm_compute in E. injection E as <-. vm_compute. reflexivity.
  - rewrite L. intros [H|[H|[H|[]]]]; discriminate.
Qed.

(** Names of modules *)
Definition use_where (u : use) : label := let (m, f, l, _, _) := u in (m, f, l).
Lemma uses_checked : forallb (fun u => use_found modules u || listed (use_where u) failing)%bool uses = true.
Proof. vm_cast_no_check (eq_refl true). Qed.

(** Every name taken from another module of the package exists there, apart
    from the two functions the two-dimensional pipe uses. *)
Theorem C169_module_names : forall m f l b n, In (Use_of m f l b n) uses -> ~ In (m, f, l) failing ->
  exists m0 m2 m3 x, look modules 10 m b = Some (m0, Mod m2) /\ look modules 10 m2 n = Some (m3, x).
Proof.
  intros m f l b n U F. pose proof uses_checked as K. rewrite forallb_forall in K. specialize (K _ U).
  apply orb_true_iff in K. destruct K as [K|K]; [|exfalso; apply F; now apply listed_In].
  unfold use_found in K. destruct (look modules 10 m b) as [[m0 [| |m2| |]]|] eqn:E; try discriminate.
  destruct (look modules 10 m2 n) as [[m3 x]|] eqn:E2; [|discriminate].
  exists m0, m2, m3, x. auto.
Qed.
Print Assumptions C169_module_names.

(** The differential of the two-dimensional pipe calls a function with a
    keyword it does not have, and two functions that do not exist. *)
Theorem C169_pipe2D_refuted :
  (exists t s, In t sites /\ where_ t = ("parts/pipe2D", "Pipe2D.get_diff", 637%positive) /\
     the_targets t = [("", Some s)] /\ ~ can_bind t s) /\
  (forall l, l = 702%positive \/ l = 711%positive -> exists t, In t sites /\
     where_ t = ("parts/pipe2D", "Pipe2D.get_diff", l) /\ the_targets t = [("", None)]).
Proof.
  assert (G : forall l t, find (fun t => label_eqb (where_ t) ("parts/pipe2D", "Pipe2D.get_diff", l)) sites = Some t ->
    In t sites /\ where_ t = ("parts/pipe2D", "Pipe2D.get_diff", l)).
  { intros l t E. apply find_some in E. destruct E as [I L]. split; [exact I|now apply label_eqb_eq]. }
  split.
  - destruct (find (fun t => label_eqb (where_ t) ("parts/pipe2D", "Pipe2D.get_diff", 637%positive)) sites) as [t|] eqn:E;
      [|vm_compute in E; discriminate].
    destruct (G _ _ E) as [I L]. vm_compute in E. injection E as E.
    destruct (the_targets t) as [|[c [s|]] [|? ?]] eqn:TT; rewrite <- E in TT; vm_compute in TT; try discriminate.
    injection TT as <- <-. eexists t, _. repeat split; try assumption.
    + rewrite <- E. vm_compute. reflexivity.
    + intros (m & ks & M & KS & B). assert (M0 : m = 0%nat) by (apply M; rewrite <- E; reflexivity).
      assert (K0 : ks = []) by (apply KS; rewrite <- E; reflexivity). subst m ks.
      apply C169_binding in B. rewrite <- E in B. vm_compute in B. discriminate.
  - intros l [-> | ->].
    + destruct (find (fun t => label_eqb (where_ t) ("parts/pipe2D", "Pipe2D.get_diff", 702%positive)) sites) as [t|] eqn:E;
        [|vm_compute in E; discriminate].
      destruct (G _ _ E) as [I L]. exists t. repeat split; try assumption.
      vm_compute in E. injection E as <-. vm_compute. reflexivity.
    + destruct (find (fun t => label_eqb (where_ t) ("parts/pipe2D", "Pipe2D.get_diff", 711%positive)) sites) as [t|] eqn:E;
        [|vm_compute in E; discriminate].
      destruct (G _ _ E) as [I L]. exists t. repeat split; try assumption.
      vm_compute in E. injection E as <-. vm_compute. reflexivity.
Qed.
Print Assumptions C169_pipe2D_refuted.

(** ** C170: every quantity goes to the parameter of its name *)

(** The parameters that receive an argument that is a variable or attribute,
    with its name. *)
Definition passed (t : site) (s : sig) : list (string * string) :=
  List.app (combine (s_pos s) (t_pos t)) (filter (fun p => mem (fst p) (parameters s)) (t_kws t)).

Definition swapped_at : list label := [
  ("_utility/plotting", "prediction_realization_2d_kde", 520%positive);
  ("utility_functions", "plot_2d_kde", 3505%positive)].

Definition straight (t : site) (s : sig) : bool :=
  (t_star t || forallb (fun pa => String.eqb (bare (snd pa)) (bare (fst pa)) ||
                                  negb (mem (bare (snd pa)) (map bare (parameters s)))) (passed t s))%bool.

Lemma straight_checked :
  forallb (fun t => listed (where_ t) swapped_at ||
    forallb (fun x => match snd x with Some s => straight t s | None => true end) (the_targets t))%bool sites = true.
Proof. vm_cast_no_check (eq_refl true). Qed.

(** In every call, a variable whose name is that of a parameter of the callee
    (up to leading underscores) is passed to this parameter and to no other:
    no two arguments are exchanged.  Two calls are listed apart. *)
Theorem C170_straight : forall t c s p a, In t sites -> ~ In (where_ t) swapped_at ->
  In (c, Some s) (the_targets t) -> t_star t = false ->
  (exists i, nth_error (s_pos s) i = Some p /\ nth_error (t_pos t) i = Some a) \/
  (In (p, a) (t_kws t) /\ In p (parameters s)) ->
  forall q, In q (parameters s) -> bare a = bare q -> bare a = bare p.
Proof.
  intros t c s p a T F H S P q Q E. pose proof straight_checked as K. rewrite forallb_forall in K.
  specialize (K _ T). apply orb_true_iff in K. destruct K as [K|K]; [exfalso; apply F; now apply listed_In|].
  rewrite forallb_forall in K. specialize (K _ H). cbn [snd] in K. unfold straight in K. rewrite S in K. cbn in K.
  rewrite forallb_forall in K.
  assert (I : In (p, a) (passed t s)).
  { unfold passed. apply in_or_app. destruct P as [(i & P1 & P2)|[P1 P2]].
    - left. clear - P1 P2. revert i P1 P2. generalize (s_pos s) (t_pos t).
      induction l as [|x l IH]; intros [|y r] [|i] P1 P2; cbn in *; try discriminate.
      + injection P1 as ->. injection P2 as ->. now left.
      + right. now apply (IH r i).
    - right. apply filter_In. split; [exact P1|]. cbn. now apply mem_In. }
  specialize (K _ I). cbn [fst snd] in K. apply orb_true_iff in K. destruct K as [K|K].
  - now apply String.eqb_eq.
  - apply negb_true_iff in K. rewrite <- not_true_iff_false in K. exfalso. apply K. apply mem_In.
    rewrite E. now apply in_map.
Qed.
Print Assumptions C170_straight.

(** How often this says something: over 1000 arguments are
    variables named like their parameter. *)
Example C170_size :
  Nat.leb 1000 (List.length (flat_map (fun t => flat_map (fun x => match snd x with
     | Some s => filter (fun pa => String.eqb (bare (snd pa)) (bare (fst pa))) (passed t s) | None => [] end)
     (firstn 1 (the_targets t))) sites)) = true.
Proof. vm_compute. reflexivity. Qed.

(** The contour plot annotates its error measures with realisation and
    prediction exchanged: parameter [y] is given [y_hat] and parameter [y_hat]
    is given [y]. *)
Theorem C170_errors_refuted :
  exists t s, In t sites /\ where_ t = ("_utility/plotting", "prediction_realization_2d_kde", 520%positive) /\
    t_callee t = Plain "annotate_errors" /\ the_targets t = [("", Some s)] /\
    In "y" (s_pos s) /\ In "y_hat" (s_pos s) /\ In ("y", "y_hat") (t_kws t) /\ In ("y_hat", "y") (t_kws t).
Proof.
  destruct (find (fun t => label_eqb (where_ t) ("_utility/plotting", "prediction_realization_2d_kde", 520%positive)) sites)
    as [t|] eqn:E; [|vm_compute in E; discriminate].
  pose proof (find_some _ _ E) as [I L]. apply label_eqb_eq in L. vm_compute in E. injection E as E.
  destruct (the_targets t) as [|[c [s|]] [|? ?]] eqn:TT; rewrite <- E in TT; vm_compute in TT; try discriminate.
  injection TT as <- <-. eexists t, _. repeat split; try assumption.
  - rewrite <- E. reflexivity.
  - rewrite <- E. vm_compute. reflexivity.
  - cbn. tauto.
  - cbn. tauto.
  - rewrite <- E. cbn. tauto.
  - rewrite <- E. cbn. tauto.
Qed.
Print Assumptions C170_errors_refuted.

(** ** Solver inputs *)

(** The lists of attribute names after [init_part]: the branched pipes insert
    the mass flow at position 6 of the list of the pipe (pipe_branched.py 118,
    pipe_with_valve.py 192); solved implicitly, the exchanger removes some
    (hex_num.py 628-640). *)
Definition solver_inputs : list (string * list string * string * list string) := [
  ("Pipe", inputs_Pipe, "pipe1D_diff", ["timestep"]);
  ("PipeBranched", insert_at 6 "dm" inputs_Pipe, "pipe1D_branched_diff", ["timestep"]);
  ("PipeWith3wValve", insert_at 6 "dm" inputs_Pipe, "pipe1D_branched_diff", ["timestep"]);
  ("Tes", inputs_Tes, "tes_diff", ["timestep"]);
  ("HexNum", inputs_HexNum, "hexnum_diff", ["timestep"]);
  ("HexNum (implicit)", remove_all removed_HexNum inputs_HexNum, "hexnum_diff_impl", [])].

Definition lined_up (e : string * list string * string * list string) : bool :=
  let '(_, l, f, r) := e in
  match target modules classes "precomp_funs" f with
  | Some s => if list_eq_dec string_dec (map bare (List.app l r)) (map bare (parameters s)) then true else false
  | None => false
  end.

Lemma inputs_checked : forallb lined_up solver_inputs = true.
Proof. vm_cast_no_check (eq_refl true). Qed.

(** The arrays handed to a solver function by position arrive at the
    parameters of their names, one for each, in all parts that do so. *)
Theorem C170_solver_inputs : forall c l f r, In (c, l, f, r) solver_inputs ->
  exists s, target modules classes "precomp_funs" f = Some s /\
    fits s (List.length (List.app l r)) [] /\
    forall i a p, nth_error (List.app l r) i = Some a -> nth_error (s_pos s) i = Some p -> bare a = bare p.
Proof.
  intros c l f r H. pose proof inputs_checked as K. rewrite forallb_forall in K. specialize (K _ H).
  unfold lined_up in K. destruct (target modules classes "precomp_funs" f) as [s|] eqn:T; [|discriminate].
  destruct (list_eq_dec string_dec (map bare (List.app l r)) (map bare (parameters s))) as [E|]; [|discriminate].
  exists s. split; [reflexivity|].
  assert (KW : s_kwo s = [] /\ (List.length (List.app l r) = List.length (s_pos s))%nat).
  { assert (W : s_kwo s = []).
    { repeat (destruct H as [H|H]; [injection H as <- <- <- <-; vm_compute in T; injection T as <-; reflexivity|]).
      destruct H. }
    split; [exact W|]. apply (f_equal (@List.length string)) in E. rewrite !map_length in E. rewrite E.
    unfold parameters. rewrite W. cbn. now rewrite app_nil_r. }
  destruct KW as [W L].
  unfold parameters in E. rewrite W in E. cbn in E. rewrite app_nil_r in E. split.
  - unfold fits. repeat split; try (intros ? []).
    + left. rewrite L. apply le_n.
    + constructor.
    + intros p Q. left. unfold required in Q. rewrite W in Q. cbn in Q. rewrite app_nil_r in Q.
      apply firstn_by_position. rewrite L, firstn_all.
      rewrite <- (firstn_skipn (List.length (s_pos s) - s_opt s) (s_pos s)). apply in_or_app. now left.
  - intros i a p A P. apply (map_nth_error bare) in A. apply (map_nth_error bare) in P. rewrite E in A. congruence.
Qed.
Print Assumptions C170_solver_inputs.

(** 58 arrays and the time step for a pipe; 46 for an exchanger solved implicitly. *)
Example C170_lengths :
  map (fun e => let '(c, l, _, r) := e in (c, List.length (List.app l r))) solver_inputs =
  [("Pipe", 59%nat); ("PipeBranched", 60%nat); ("PipeWith3wValve", 60%nat); ("Tes", 67%nat);
   ("HexNum", 53%nat); ("HexNum (implicit)", 46%nat)].
Proof. vm_compute. reflexivity. Qed.
