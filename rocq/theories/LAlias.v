(** * Deciding which arguments can be changed. *)
From Coq Require Import List Bool String PArith Arith Lia.
From Verif Require Import MAlias.
Import ListNotations.

(** Following one reference: [follow s y o z] -- what variable [y] refers to before is what [z] refers to in the end. *)
Inductive follow : stmt -> positive -> ending -> positive -> Prop :=
| F_keep : forall x ys f y, y <> x -> ys <> [] \/ f = true -> follow (Bind x ys f) y Norm y
| F_copy : forall x ys f y, In y ys -> follow (Bind x ys f) y Norm x
| F_bind_exn : forall x ys f y, follow (Bind x ys f) y Exn y
| F_write : forall x y, follow (Write x) y Norm y
| F_write_exn : forall x y, follow (Write x) y Exn y
| F_wrote : forall x y, follow (Write x) y (Wrote x) y
| F_eval : forall y, follow Eval y Norm y
| F_eval_exn : forall y, follow Eval y Exn y
| F_skip : forall y, follow Skip y Norm y
| F_seq : forall a b y y1 o y2, follow a y Norm y1 -> follow b y1 o y2 -> follow (Seq a b) y o y2
| F_seq_stop : forall a b y o y1, o <> Norm -> follow a y o y1 -> follow (Seq a b) y o y1
| F_left : forall a b y o y1, follow a y o y1 -> follow (Choice a b) y o y1
| F_right : forall a b y o y1, follow b y o y1 -> follow (Choice a b) y o y1
| F_loop_end : forall body els y o y1, follow els y o y1 -> follow (Loop false body els) y o y1
| F_loop_next : forall f body els y o1 y1 o y2, o1 = Norm \/ o1 = Cnt -> follow body y o1 y1 ->
    follow (Loop f body els) y1 o y2 -> follow (Loop f body els) y o y2
| F_loop_break : forall f body els y y1, follow body y Brk y1 -> follow (Loop f body els) y Norm y1
| F_loop_stop : forall f body els y o y1, (o = Ret \/ o = Exn \/ exists x, o = Wrote x) -> follow body y o y1 ->
    follow (Loop f body els) y o y1
| F_break : forall y, follow Break y Brk y
| F_continue : forall y, follow Continue y Cnt y
| F_return : forall y, follow Return y Ret y
| F_raise : forall y, follow Raise y Exn y
| F_try_else : forall b h els y y1 o y2, follow b y Norm y1 -> follow els y1 o y2 -> follow (Try b h els) y o y2
| F_try_caught : forall b h els y y1 o y2, follow b y Exn y1 -> follow h y1 o y2 -> follow (Try b h els) y o y2
| F_try_missed : forall b h els y y1, follow b y Exn y1 -> follow (Try b h els) y Exn y1
| F_try_stop : forall b h els y o y1, o <> Norm -> o <> Exn -> follow b y o y1 -> follow (Try b h els) y o y1
| F_frame : forall b y o y1, o = Norm \/ o = Ret -> follow b y o y1 -> follow (Frame b) y Norm y1
| F_frame_stop : forall b y o y1, (o = Exn \/ exists x, o = Wrote x) -> follow b y o y1 -> follow (Frame b) y o y1.

Lemma exec_follow : forall s e o e', exec s e o e' -> forall z q, e' z = Some q ->
  exists y, e y = Some q /\ follow s y o z.
Proof.
  induction 1; intros z q Z;
    try (now (exists z; split; [exact Z|constructor; auto])).
  - unfold set in Z. destruct (Pos.eqb_spec z x) as [->|N].
    + exists y. split; [exact Z|]. now apply F_copy.
    + exists z. split; [exact Z|]. apply F_keep; [exact N|]. left. intros ->. contradiction.
  - unfold set in Z. destruct (Pos.eqb_spec z x) as [->|N]; [discriminate|].
    exists z. split; [exact Z|]. apply F_keep; auto.
  - destruct (IHexec2 z q Z) as (y & Y & F). destruct (IHexec1 y q Y) as (w & W & G). exists w. split; [exact W|]. eapply F_seq; eauto.
  - destruct (IHexec z q Z) as (y & Y & F). exists y. split; [exact Y|]. now apply F_seq_stop.
  - destruct (IHexec z q Z) as (y & Y & F). exists y. split; [exact Y|]. now apply F_left.
  - destruct (IHexec z q Z) as (y & Y & F). exists y. split; [exact Y|]. now apply F_right.
  - destruct (IHexec z q Z) as (y & Y & F). exists y. split; [exact Y|]. now apply F_loop_end.
  - destruct (IHexec2 z q Z) as (y & Y & F). destruct (IHexec1 y q Y) as (w & W & G). exists w. split; [exact W|].
    eapply F_loop_next; eauto.
  - destruct (IHexec z q Z) as (y & Y & F). exists y. split; [exact Y|]. now apply F_loop_break.
  - destruct (IHexec z q Z) as (y & Y & F). exists y. split; [exact Y|]. now apply F_loop_stop.
  - destruct (IHexec2 z q Z) as (y & Y & F). destruct (IHexec1 y q Y) as (w & W & G). exists w. split; [exact W|].
    eapply F_try_else; eauto.
  - destruct (IHexec2 z q Z) as (y & Y & F). destruct (IHexec1 y q Y) as (w & W & G). exists w. split; [exact W|].
    eapply F_try_caught; eauto.
  - destruct (IHexec z q Z) as (y & Y & F). exists y. split; [exact Y|]. now apply F_try_missed.
  - destruct (IHexec z q Z) as (y & Y & F). exists y. split; [exact Y|]. now apply F_try_stop.
  - destruct (IHexec z q Z) as (y & Y & F). exists y. split; [exact Y|]. eapply F_frame; eauto.
  - destruct (IHexec z q Z) as (y & Y & F). exists y. split; [exact Y|]. now apply F_frame_stop.
Qed.

Lemma follow_exec : forall s y o z, follow s y o z -> forall e, exists e', exec s e o e' /\ e' z = e y.
Proof.
  induction 1; intros e; try (exists e; split; [constructor; auto|reflexivity]).
  - destruct H0 as [H0| ->].
    + destruct ys as [|w ys]; [contradiction|]. exists (set e x (e w)). split; [apply X_bind; now left|].
      unfold set. destruct (Pos.eqb_spec y x); [contradiction|reflexivity].
    + exists (set e x None). split; [apply X_fresh|]. unfold set. destruct (Pos.eqb_spec y x); [contradiction|reflexivity].
  - exists (set e x (e y)). split; [now apply X_bind|]. unfold set. now rewrite Pos.eqb_refl.
  - destruct (IHfollow1 e) as (e1 & X1 & E1). destruct (IHfollow2 e1) as (e2 & X2 & E2). exists e2.
    split; [eapply X_seq; eauto|congruence].
  - destruct (IHfollow e) as (e1 & X1 & E1). exists e1. split; [now apply X_seq_stop|assumption].
  - destruct (IHfollow e) as (e1 & X1 & E1). exists e1. split; [now apply X_left|assumption].
  - destruct (IHfollow e) as (e1 & X1 & E1). exists e1. split; [now apply X_right|assumption].
  - destruct (IHfollow e) as (e1 & X1 & E1). exists e1. split; [now apply X_loop_end|assumption].
  - destruct (IHfollow1 e) as (e1 & X1 & E1). destruct (IHfollow2 e1) as (e2 & X2 & E2). exists e2.
    split; [eapply X_loop_next; eauto|congruence].
  - destruct (IHfollow e) as (e1 & X1 & E1). exists e1. split; [now apply X_loop_break|assumption].
  - destruct (IHfollow e) as (e1 & X1 & E1). exists e1. split; [now apply X_loop_stop|assumption].
  - destruct (IHfollow1 e) as (e1 & X1 & E1). destruct (IHfollow2 e1) as (e2 & X2 & E2). exists e2.
    split; [eapply X_try_else; eauto|congruence].
  - destruct (IHfollow1 e) as (e1 & X1 & E1). destruct (IHfollow2 e1) as (e2 & X2 & E2). exists e2.
    split; [eapply X_try_caught; eauto|congruence].
  - destruct (IHfollow e) as (e1 & X1 & E1). exists e1. split; [now apply X_try_missed|assumption].
  - destruct (IHfollow e) as (e1 & X1 & E1). exists e1. split; [now apply X_try_stop|assumption].
  - destruct (IHfollow e) as (e1 & X1 & E1). exists e1. split; [eapply X_frame; eauto|assumption].
  - destruct (IHfollow e) as (e1 & X1 & E1). exists e1. split; [now apply X_frame_stop|assumption].
Qed.

(** ** Sets of variables *)
Definition mem (x : positive) (l : list positive) : bool := existsb (Pos.eqb x) l.
Definition cup (l m : list positive) : list positive := fold_right (fun x r => if mem x r then r else x :: r) m l.
Definition sub (l m : list positive) : bool := forallb (fun x => mem x m) l.
Definition without (x : positive) (l : list positive) : list positive := filter (fun y => negb (Pos.eqb y x)) l.

Lemma mem_iff : forall x l, mem x l = true <-> In x l.
Proof.
  intros x l. unfold mem. rewrite existsb_exists. split; [intros (y & I & E); apply Pos.eqb_eq in E; now subst|].
  intros I. exists x. now rewrite Pos.eqb_refl.
Qed.
Lemma cup_iff : forall x l m, In x (cup l m) <-> In x l \/ In x m.
Proof.
  intros x l m. induction l as [|y l IH]; cbn; [tauto|]. destruct (mem y (fold_right _ m l)) eqn:M.
  - apply mem_iff in M. fold (cup l m) in M. rewrite IH. split; [tauto|]. intros [[ ->|H]|H]; [|tauto|tauto]. apply IH, M.
  - cbn. fold (cup l m). rewrite IH. tauto.
Qed.
Lemma sub_iff : forall l m, sub l m = true <-> forall x, In x l -> In x m.
Proof. intros l m. unfold sub. rewrite forallb_forall. split; intros H x I; [apply mem_iff, H, I|apply mem_iff, H, I]. Qed.
Lemma without_iff : forall x y l, In y (without x l) <-> In y l /\ y <> x.
Proof.
  intros x y l. unfold without. rewrite filter_In, negb_true_iff, Pos.eqb_neq. tauto.
Qed.

(** Where a reference held by one of the variables [p] can be in the end; [oW]: it can be the one changed;
    [oK]: the search came to an end in all loops. *)
Record outs := { oN : list positive; oB : list positive; oC : list positive; oR : list positive; oE : list positive;
                 oW : bool; oK : bool }.
Definition rounds : nat := 6.
Fixpoint post (s : stmt) (p : list positive) : outs :=
  match s with
  | Bind x ys f =>
      let keep := if (negb (match ys with [] => true | _ => false end) || f)%bool then without x p else [] in
      {| oN := if existsb (fun y => mem y p) ys then cup [x] keep else keep;
         oB := []; oC := []; oR := []; oE := p; oW := false; oK := true |}
  | Write x => {| oN := p; oB := []; oC := []; oR := []; oE := p; oW := mem x p; oK := true |}
  | Eval => {| oN := p; oB := []; oC := []; oR := []; oE := p; oW := false; oK := true |}
  | Skip => {| oN := p; oB := []; oC := []; oR := []; oE := []; oW := false; oK := true |}
  | Seq a b =>
      let r := post a p in let q := post b (oN r) in
      {| oN := oN q; oB := cup (oB r) (oB q); oC := cup (oC r) (oC q); oR := cup (oR r) (oR q); oE := cup (oE r) (oE q);
         oW := oW r || oW q; oK := oK r && oK q |}
  | Choice a b =>
      let r := post a p in let q := post b p in
      {| oN := cup (oN r) (oN q); oB := cup (oB r) (oB q); oC := cup (oC r) (oC q); oR := cup (oR r) (oR q);
         oE := cup (oE r) (oE q); oW := oW r || oW q; oK := oK r && oK q |}
  | Loop f body els =>
      let step h := let r := post body h in cup h (cup (oN r) (oC r)) in
      let h := Nat.iter rounds step p in
      let r := post body h in
      let q := post els (if f then [] else h) in
      {| oN := cup (oB r) (oN q); oB := oB q; oC := oC q; oR := cup (oR r) (oR q); oE := cup (oE r) (oE q);
         oW := oW r || oW q; oK := oK r && oK q && sub (cup (oN r) (oC r)) h |}
  | Break => {| oN := []; oB := p; oC := []; oR := []; oE := []; oW := false; oK := true |}
  | Continue => {| oN := []; oB := []; oC := p; oR := []; oE := []; oW := false; oK := true |}
  | Return => {| oN := []; oB := []; oC := []; oR := p; oE := []; oW := false; oK := true |}
  | Raise => {| oN := []; oB := []; oC := []; oR := []; oE := p; oW := false; oK := true |}
  | Try b h els =>
      let r := post b p in let q1 := post els (oN r) in let q2 := post h (oE r) in
      {| oN := cup (oN q1) (oN q2); oB := cup (oB r) (cup (oB q1) (oB q2)); oC := cup (oC r) (cup (oC q1) (oC q2));
         oR := cup (oR r) (cup (oR q1) (oR q2)); oE := cup (oE r) (cup (oE q1) (oE q2));
         oW := oW r || oW q1 || oW q2; oK := oK r && oK q1 && oK q2 |}
  | Frame b =>
      let r := post b p in
      {| oN := cup (oN r) (oR r); oB := []; oC := []; oR := []; oE := oE r; oW := oW r; oK := oK r |}
  end.

(** Reference at [z] in the end, or changed. *)
Definition at_end (r : outs) (o : ending) (z : positive) : Prop :=
  match o with
  | Norm => In z (oN r) | Brk => In z (oB r) | Cnt => In z (oC r) | Ret => In z (oR r) | Exn => In z (oE r)
  | Wrote x => x = z -> oW r = true
  end.

Ltac cups := repeat (rewrite ?cup_iff, ?orb_true_iff in *).

Lemma iter_in : forall n (step : list positive -> list positive) p, (forall h x, In x h -> In x (step h)) ->
  forall x, In x p -> In x (Nat.iter n step p).
Proof. induction n as [|n IH]; intros step p H x I; [exact I|]. cbn. apply H, IH; assumption. Qed.

Lemma post_sound : forall s y o z p, follow s y o z -> oK (post s p) = true -> In y p -> at_end (post s p) o z.
Proof.
  induction s as [x ys f|x| | |a IHa b IHb|a IHa b IHb|f body IHbody els IHels| | | | |b IHb h IHh els IHels|b IHb];
    intros y o z p F K I; cbn [post oK] in K.
  - inversion F; subst; cbn [post at_end oN oE].
    + assert (A : (negb (match ys with [] => true | _ => false end) || f)%bool = true).
      { destruct ys; [|reflexivity]. cbn. match goal with H : _ \/ _ |- _ => destruct H as [H|H]; [now destruct H|exact H] end. }
      rewrite A. assert (J : In z (without x p)) by (apply without_iff; auto).
      destruct (existsb _ ys); [apply cup_iff; now right|exact J].
    + assert (A : existsb (fun y => mem y p) ys = true).
      { apply existsb_exists. exists y. split; [assumption|]. now apply mem_iff. }
      rewrite A. apply cup_iff. left. now left.
    + exact I.
  - inversion F; subst; cbn [post at_end oN oE oW]; try exact I. intros ->. now apply mem_iff.
  - inversion F; subst; exact I.
  - inversion F; subst; exact I.
  - apply andb_true_iff in K. destruct K as [K1 K2]. inversion F; subst; cbn [post at_end oN oB oC oR oE oW].
    + match goal with H1 : follow a _ _ _, H2 : follow b _ _ _ |- _ =>
        pose proof (IHa _ _ _ _ H1 K1 I) as A; pose proof (IHb _ _ _ _ H2 K2 A) as B end.
      destruct o; cbn [at_end oN oB oC oR oE oW] in *; rewrite ?cup_iff; auto. intros E. rewrite orb_true_iff. auto.
    + match goal with H1 : follow a _ _ _ |- _ => pose proof (IHa _ _ _ _ H1 K1 I) as A end.
      destruct o; cbn [at_end oN oB oC oR oE oW] in *; rewrite ?cup_iff; auto; [contradiction|]. intros E. rewrite orb_true_iff. auto.
  - apply andb_true_iff in K. destruct K as [K1 K2]. inversion F; subst; cbn [post at_end oN oB oC oR oE oW].
    + match goal with H1 : follow a _ _ _ |- _ => pose proof (IHa _ _ _ _ H1 K1 I) as A end.
      destruct o; cbn [at_end oN oB oC oR oE oW] in *; rewrite ?cup_iff; auto. intros E. rewrite orb_true_iff. auto.
    + match goal with H1 : follow b _ _ _ |- _ => pose proof (IHb _ _ _ _ H1 K2 I) as A end.
      destruct o; cbn [at_end oN oB oC oR oE oW] in *; rewrite ?cup_iff; auto. intros E. rewrite orb_true_iff. auto.
  - cbn [post]. set (step := fun h => let r := post body h in cup h (cup (oN r) (oC r))) in *.
    set (h := Nat.iter rounds step p) in *.
    assert (J : In y h).
    { apply iter_in; [|exact I]. intros l x X. unfold step. apply cup_iff. now left. }
    clearbody h step. apply andb_true_iff in K. destruct K as [K S]. apply andb_true_iff in K. destruct K as [K1 K2].
    rewrite sub_iff in S. clear I. remember (Loop f body els) as L eqn:EL. revert J.
    induction F; inversion EL; subst; intros J; cbn [at_end oN oB oC oR oE oW].
    + pose proof (IHels _ _ _ _ F K2 J) as A.
      destruct o; cbn [at_end oN oB oC oR oE oW] in *; rewrite ?cup_iff; auto. intros E. rewrite orb_true_iff. auto.
    + match goal with H1 : follow body _ _ _ |- _ => pose proof (IHbody _ _ _ _ H1 K1 J) as A end.
      assert (J1 : In y1 h) by (apply S; apply cup_iff; destruct H as [->| ->]; cbn [at_end] in A; auto).
      apply IHF2; auto.
    + pose proof (IHbody _ _ _ _ F K1 J) as A. cbn [at_end] in A. apply cup_iff. now left.
    + pose proof (IHbody _ _ _ _ F K1 J) as A.
      destruct H as [->|[->|(x & ->)]]; cbn [at_end oN oB oC oR oE oW] in *; rewrite ?cup_iff; auto. intros E. rewrite orb_true_iff. auto.
  - inversion F; subst; exact I.
  - inversion F; subst; exact I.
  - inversion F; subst; exact I.
  - inversion F; subst; exact I.
  - apply andb_true_iff in K. destruct K as [K K3]. apply andb_true_iff in K. destruct K as [K1 K2].
    inversion F; subst; cbn [post at_end oN oB oC oR oE oW].
    + match goal with H1 : follow b _ _ _, H2 : follow els _ _ _ |- _ =>
        pose proof (IHb _ _ _ _ H1 K1 I) as A; pose proof (IHels _ _ _ _ H2 K2 A) as B end.
      destruct o; cbn [at_end oN oB oC oR oE oW] in *; rewrite ?cup_iff; auto. intros E. rewrite !orb_true_iff. auto.
    + match goal with H1 : follow b _ _ _, H2 : follow h _ _ _ |- _ =>
        pose proof (IHb _ _ _ _ H1 K1 I) as A; pose proof (IHh _ _ _ _ H2 K3 A) as B end.
      destruct o; cbn [at_end oN oB oC oR oE oW] in *; rewrite ?cup_iff; auto. intros E. rewrite !orb_true_iff. auto.
    + match goal with H1 : follow b _ _ _ |- _ => pose proof (IHb _ _ _ _ H1 K1 I) as A end.
      cbn [at_end oN oB oC oR oE oW] in *. rewrite cup_iff. auto.
    + match goal with H1 : follow b _ _ _ |- _ => pose proof (IHb _ _ _ _ H1 K1 I) as A end.
      destruct o; cbn [at_end oN oB oC oR oE oW] in *; rewrite ?cup_iff; auto; try contradiction. intros E. rewrite !orb_true_iff. auto.
  - inversion F; subst; cbn [post at_end oN oB oC oR oE oW].
    + match goal with H1 : follow b _ _ _ |- _ => pose proof (IHb _ _ _ _ H1 K I) as A end.
      match goal with H : _ \/ _ |- _ => destruct H as [->| ->] end; cbn [at_end] in A; rewrite cup_iff; auto.
    + match goal with H1 : follow b _ _ _ |- _ => pose proof (IHb _ _ _ _ H1 K I) as A end.
      match goal with H : _ \/ _ |- _ => destruct H as [->|(x & ->)] end; exact A.
Qed.

(** Nothing is found in vain: every place found is reached from one of the variables. *)
Definition from (s : stmt) (p : list positive) (o : ending) (z : positive) : Prop := exists y, In y p /\ follow s y o z.
Record found (s : stmt) (p : list positive) (r : outs) : Prop := {
  fN : forall z, In z (oN r) -> from s p Norm z;
  fB : forall z, In z (oB r) -> from s p Brk z;
  fC : forall z, In z (oC r) -> from s p Cnt z;
  fR : forall z, In z (oR r) -> from s p Ret z;
  fE : forall z, In z (oE r) -> from s p Exn z;
  fW : oW r = true -> exists x, from s p (Wrote x) x }.

Lemma from_self : forall s p o z, In z p -> follow s z o z -> from s p o z.
Proof. intros s p o z I F. now exists z. Qed.
Lemma from_mono : forall s t p o o' z, (forall y, follow s y o z -> follow t y o' z) -> from s p o z -> from t p o' z.
Proof. intros s t p o o' z H (y & I & F). exists y. auto. Qed.
Lemma from_then : forall s s2 t p q o1 o o' z, (forall x, In x q -> from s p o1 x) ->
  (forall y x, follow s y o1 x -> follow s2 x o z -> follow t y o' z) -> from s2 q o z -> from t p o' z.
Proof. intros s s2 t p q o1 o o' z A H (x & I & F). destruct (A x I) as (y & J & G). exists y. eauto. Qed.

Lemma post_found : forall s p, found s p (post s p).
Proof.
  induction s as [x ys f|x| | |a IHa b IHb|a IHa b IHb|f body IHbody els IHels| | | | |b IHb h IHh els IHels|b IHb]; intros p.
  - split; cbn [post oN oB oC oR oE oW]; try (intros z []); try discriminate.
    + assert (KP : forall z, In z (if (negb (match ys with [] => true | _ => false end) || f)%bool then without x p else []) ->
                     from (Bind x ys f) p Norm z).
      { intros z Z. destruct (negb _ || f)%bool eqn:A; [|destruct Z]. apply without_iff in Z. destruct Z as [Z N].
        apply from_self; [exact Z|]. apply F_keep; [exact N|]. destruct ys; [right|left; discriminate]. exact A. }
      intros z Z. destruct (existsb _ ys) eqn:A; [|now apply KP]. apply cup_iff in Z. destruct Z as [[<-|[]]|Z]; [|now apply KP].
      apply existsb_exists in A. destruct A as (y & Y & M). apply mem_iff in M. exists y. split; [exact M|]. now apply F_copy.
    + intros z Z. apply from_self; [exact Z|]. constructor.
  - split; cbn [post oN oB oC oR oE oW]; try (intros z []); try discriminate.
    + intros z Z. apply from_self; [exact Z|constructor].
    + intros z Z. apply from_self; [exact Z|constructor].
    + intros M. apply mem_iff in M. exists x. apply from_self; [exact M|constructor].
  - split; cbn [post oN oB oC oR oE oW]; try (intros z []); try discriminate; intros z Z; apply from_self; [exact Z|constructor|exact Z|constructor].
  - split; cbn [post oN oB oC oR oE oW]; try (intros z []); try discriminate. intros z Z; apply from_self; [exact Z|constructor].
  - pose proof (IHa p) as A. pose proof (IHb (oN (post a p))) as B.
    assert (S : forall o z, from b (oN (post a p)) o z -> from (Seq a b) p o z).
    { intros o z. apply (from_then a b (Seq a b) p (oN (post a p)) Norm o o z (fN _ _ _ A)). intros; eapply F_seq; eauto. }
    assert (T : forall o z, o <> Norm -> from a p o z -> from (Seq a b) p o z).
    { intros o z N. apply from_mono. intros; now apply F_seq_stop. }
    split; cbn [post oN oB oC oR oE oW]; intros z; rewrite ?cup_iff, ?orb_true_iff.
    + intros Z. apply S, (fN _ _ _ B), Z.
    + intros [Z|Z]; [apply T; [discriminate|apply (fB _ _ _ A), Z]|apply S, (fB _ _ _ B), Z].
    + intros [Z|Z]; [apply T; [discriminate|apply (fC _ _ _ A), Z]|apply S, (fC _ _ _ B), Z].
    + intros [Z|Z]; [apply T; [discriminate|apply (fR _ _ _ A), Z]|apply S, (fR _ _ _ B), Z].
    + intros [Z|Z]; [apply T; [discriminate|apply (fE _ _ _ A), Z]|apply S, (fE _ _ _ B), Z].
    + apply orb_true_iff in z. destruct z as [Z|Z].
      * destruct (fW _ _ _ A Z) as (x & X). exists x. apply T; [discriminate|exact X].
      * destruct (fW _ _ _ B Z) as (x & X). exists x. apply S, X.
  - pose proof (IHa p) as A. pose proof (IHb p) as B.
    assert (S : forall o z, from a p o z -> from (Choice a b) p o z) by (intros o z; apply from_mono; intros; now apply F_left).
    assert (T : forall o z, from b p o z -> from (Choice a b) p o z) by (intros o z; apply from_mono; intros; now apply F_right).
    split; cbn [post oN oB oC oR oE oW]; intros z; rewrite ?cup_iff.
    + intros [Z|Z]; [apply S, (fN _ _ _ A), Z|apply T, (fN _ _ _ B), Z].
    + intros [Z|Z]; [apply S, (fB _ _ _ A), Z|apply T, (fB _ _ _ B), Z].
    + intros [Z|Z]; [apply S, (fC _ _ _ A), Z|apply T, (fC _ _ _ B), Z].
    + intros [Z|Z]; [apply S, (fR _ _ _ A), Z|apply T, (fR _ _ _ B), Z].
    + intros [Z|Z]; [apply S, (fE _ _ _ A), Z|apply T, (fE _ _ _ B), Z].
    + apply orb_true_iff in z. destruct z as [Z|Z].
      * destruct (fW _ _ _ A Z) as (x & X). exists x. apply S, X.
      * destruct (fW _ _ _ B Z) as (x & X). exists x. apply T, X.
  - cbn [post]. set (step := fun h => let r := post body h in cup h (cup (oN r) (oC r))).
    set (h := Nat.iter rounds step p).
    (* entering the loop body again *)
    assert (E : forall n o z x, In x (Nat.iter n step p) -> follow (Loop f body els) x o z -> from (Loop f body els) p o z).
    { induction n as [|n IH]; intros o z x X F; [now exists x|]. cbn in X. unfold step at 1 in X. cbn zeta in X. apply cup_iff in X.
      destruct X as [X|X]; [eapply IH; eauto|]. apply cup_iff in X. pose proof (IHbody (Nat.iter n step p)) as B.
      destruct X as [X|X].
      - destruct (fN _ _ _ B x X) as (y & Y & G). eapply IH; [exact Y|]. eapply F_loop_next; [left; reflexivity|exact G|exact F].
      - destruct (fC _ _ _ B x X) as (y & Y & G). eapply IH; [exact Y|]. eapply F_loop_next; [right; reflexivity|exact G|exact F]. }
    specialize (E rounds). fold h in E. clearbody h. clear step.
    pose proof (IHbody h) as A. pose proof (IHels (if f then [] else h)) as B.
    assert (S : forall o z, (o = Ret \/ o = Exn \/ exists x, o = Wrote x) -> from body h o z -> from (Loop f body els) p o z).
    { intros o z O (y & Y & F). eapply E; [exact Y|]. now apply F_loop_stop. }
    assert (T : forall o z, from els (if f then [] else h) o z -> from (Loop f body els) p o z).
    { intros o z (y & Y & F). destruct f; [destruct Y|]. eapply E; [exact Y|]. now apply F_loop_end. }
    split; cbn [oN oB oC oR oE oW]; intros z; rewrite ?cup_iff.
    + intros [Z|Z]; [|apply T, (fN _ _ _ B), Z]. destruct (fB _ _ _ A z Z) as (y & Y & F). eapply E; [exact Y|]. now apply F_loop_break.
    + intros Z. apply T, (fB _ _ _ B), Z.
    + intros Z. apply T, (fC _ _ _ B), Z.
    + intros [Z|Z]; [apply S; [auto|apply (fR _ _ _ A), Z]|apply T, (fR _ _ _ B), Z].
    + intros [Z|Z]; [apply S; [auto|apply (fE _ _ _ A), Z]|apply T, (fE _ _ _ B), Z].
    + apply orb_true_iff in z. destruct z as [Z|Z].
      * destruct (fW _ _ _ A Z) as (x & X). exists x. apply S; [right; right; now exists x|exact X].
      * destruct (fW _ _ _ B Z) as (x & X). exists x. apply T, X.
  - split; cbn [post oN oB oC oR oE oW]; try (intros z []); try discriminate. intros z Z; apply from_self; [exact Z|constructor].
  - split; cbn [post oN oB oC oR oE oW]; try (intros z []); try discriminate. intros z Z; apply from_self; [exact Z|constructor].
  - split; cbn [post oN oB oC oR oE oW]; try (intros z []); try discriminate. intros z Z; apply from_self; [exact Z|constructor].
  - split; cbn [post oN oB oC oR oE oW]; try (intros z []); try discriminate. intros z Z; apply from_self; [exact Z|constructor].
  - pose proof (IHb p) as A. pose proof (IHels (oN (post b p))) as B. pose proof (IHh (oE (post b p))) as C.
    assert (S : forall o z, from els (oN (post b p)) o z -> from (Try b h els) p o z).
    { intros o z. apply (from_then b els (Try b h els) p _ Norm o o z (fN _ _ _ A)). intros; eapply F_try_else; eauto. }
    assert (T : forall o z, from h (oE (post b p)) o z -> from (Try b h els) p o z).
    { intros o z. apply (from_then b h (Try b h els) p _ Exn o o z (fE _ _ _ A)). intros; eapply F_try_caught; eauto. }
    assert (U : forall o z, o <> Norm -> o <> Exn -> from b p o z -> from (Try b h els) p o z).
    { intros o z N1 N2. apply from_mono. intros; now apply F_try_stop. }
    split; cbn [post oN oB oC oR oE oW]; intros z; rewrite ?cup_iff.
    + intros [Z|Z]; [apply S, (fN _ _ _ B), Z|apply T, (fN _ _ _ C), Z].
    + intros [Z|[Z|Z]]; [apply U; [discriminate|discriminate|apply (fB _ _ _ A), Z]|apply S, (fB _ _ _ B), Z|apply T, (fB _ _ _ C), Z].
    + intros [Z|[Z|Z]]; [apply U; [discriminate|discriminate|apply (fC _ _ _ A), Z]|apply S, (fC _ _ _ B), Z|apply T, (fC _ _ _ C), Z].
    + intros [Z|[Z|Z]]; [apply U; [discriminate|discriminate|apply (fR _ _ _ A), Z]|apply S, (fR _ _ _ B), Z|apply T, (fR _ _ _ C), Z].
    + intros [Z|[Z|Z]]; [|apply S, (fE _ _ _ B), Z|apply T, (fE _ _ _ C), Z].
      destruct (fE _ _ _ A z Z) as (y & Y & F). exists y. split; [exact Y|]. now apply F_try_missed.
    + rewrite !orb_true_iff in z. destruct z as [[Z|Z]|Z].
      * destruct (fW _ _ _ A Z) as (x & X). exists x. apply U; [discriminate|discriminate|exact X].
      * destruct (fW _ _ _ B Z) as (x & X). exists x. apply S, X.
      * destruct (fW _ _ _ C Z) as (x & X). exists x. apply T, X.
  - pose proof (IHb p) as A. split; cbn [post oN oB oC oR oE oW]; try (intros z []).
    + intros z. rewrite cup_iff. intros [Z|Z].
      * eapply from_mono; [|apply (fN _ _ _ A), Z]. intros; apply (F_frame b y Norm); auto.
      * eapply from_mono; [|apply (fR _ _ _ A), Z]. intros; apply (F_frame b y Ret); auto.
    + intros z Z. eapply from_mono; [|apply (fE _ _ _ A), Z]. intros; apply F_frame_stop; auto.
    + intros Z. destruct (fW _ _ _ A Z) as (x & X). exists x. eapply from_mono; [|exact X]. intros; apply F_frame_stop; [right; now exists x|assumption].
Qed.

(** ** Functions *)
Definition may_change (f : func) (k : nat) : bool := oW (post (f_body f) [variable k]).
Definition searched (f : func) (k : nat) : bool := oK (post (f_body f) [variable k]).

Lemma start_variable : forall f y k, start f y = Some k -> y = variable k /\ k < List.length (f_params f).
Proof.
  intros f y k. unfold start, variable. destruct (Nat.ltb _ _) eqn:L; [|discriminate]. intros E. injection E as <-.
  apply Nat.ltb_lt in L. split; [|exact L]. pose proof (Pos2Nat.is_pos y). apply Pos2Nat.inj. rewrite SuccNat2Pos.id_succ. lia.
Qed.
Lemma variable_start : forall f k, k < List.length (f_params f) -> start f (variable k) = Some k.
Proof.
  intros f k L. unfold start, variable. rewrite SuccNat2Pos.id_succ. cbn [Nat.pred]. apply Nat.ltb_lt in L. now rewrite L.
Qed.

Theorem changes_iff : forall f k, searched f k = true -> k < List.length (f_params f) ->
  (changes f k <-> may_change f k = true).
Proof.
  intros f k K L. unfold changes, may_change, searched in *. split.
  - intros (x & e & X & E). destruct (exec_follow _ _ _ _ X x k E) as (y & Y & F). apply start_variable in Y. destruct Y as [-> _].
    exact (post_sound _ _ _ _ [variable k] F K (or_introl eq_refl) eq_refl).
  - intros W. destruct (fW _ _ _ (post_found (f_body f) [variable k]) W) as (x & y & [<-|[]] & F).
    destruct (follow_exec _ _ _ _ F (start f)) as (e & X & E). exists x, e. split; [exact X|]. rewrite E. now apply variable_start.
Qed.
