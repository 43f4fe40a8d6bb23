(** * Deciding which names can be read while unbound. *)
From Coq Require Import List Bool String PArith Arith Lia.
From Verif Require Import MPy.
Import ListNotations.

(** Sets of states of one name: may it be unbound, may it be bound. *)
Definition states := (bool * bool)%type.
Definition has (p : states) (b : bool) : bool := if b then snd p else fst p.
Definition none : states := (false, false).
Definition cup (p q : states) : states := (fst p || fst q, snd p || snd q).

Record outs := { oN : states; oB : states; oC : states; oR : states; oE : states; oU : states }.
Definition get (r : outs) (o : ending) : states :=
  match o with Norm => oN r | Brk => oB r | Cnt => oC r | Ret => oR r | Exn => oE r | Unbound => oU r end.
Definition nothing : outs := Build_outs none none none none none none.
Definition join (r q : outs) : outs :=
  {| oN := cup (oN r) (oN q); oB := cup (oB r) (oB q); oC := cup (oC r) (oC q);
     oR := cup (oR r) (oR q); oE := cup (oE r) (oE q); oU := cup (oU r) (oU q) |}.

(** All endings of a statement started in one of the states [p]. *)
Fixpoint post (known : oracle) (x : positive) (s : stmt) (p : states) : outs :=
  match s with
  | Use xs =>
      if reads x xs
      then {| oN := (false, snd p); oB := none; oC := none; oR := none; oE := p; oU := (fst p, false) |}
      else {| oN := p; oB := none; oC := none; oR := none; oE := p; oU := none |}
  | Def xs =>
      if reads x xs
      then {| oN := (false, fst p || snd p); oB := none; oC := none; oR := none;
              oE := (fst p, fst p || snd p); oU := none |}
      else {| oN := p; oB := none; oC := none; oR := none; oE := p; oU := none |}
  | Del xs =>
      if reads x xs
      then {| oN := (fst p || snd p, false); oB := none; oC := none; oR := none; oE := none; oU := none |}
      else {| oN := p; oB := none; oC := none; oR := none; oE := none; oU := none |}
  | Skip => {| oN := p; oB := none; oC := none; oR := none; oE := none; oU := none |}
  | Seq a c =>
      let r := post known x a p in
      let q := post known x c (oN r) in
      {| oN := oN q; oB := cup (oB r) (oB q); oC := cup (oC r) (oC q);
         oR := cup (oR r) (oR q); oE := cup (oE r) (oE q); oU := cup (oU r) (oU q) |}
  | Choice k a c =>
      join (post known x a (match known k with Some false => none | _ => p end))
           (post known x c (match known k with Some true => none | _ => p end))
  | Loop f body els =>
      let step h := let r := post known x body h in cup h (cup (oN r) (oC r)) in
      let h := step (step p) in
      let r := post known x body h in
      let q := post known x els (if f then none else h) in
      {| oN := cup (oB r) (oN q); oB := oB q; oC := oC q;
         oR := cup (oR r) (oR q); oE := cup (oE r) (oE q); oU := cup (oU r) (oU q) |}
  | Break => {| oN := none; oB := p; oC := none; oR := none; oE := none; oU := none |}
  | Continue => {| oN := none; oB := none; oC := p; oR := none; oE := none; oU := none |}
  | Return => {| oN := none; oB := none; oC := none; oR := p; oE := none; oU := none |}
  | Raise => {| oN := none; oB := none; oC := none; oR := none; oE := p; oU := none |}
  | Try body h els =>
      let r := post known x body p in
      let q := join (post known x els (oN r)) (post known x h (oE r)) in
      {| oN := oN q; oB := cup (oB r) (oB q); oC := cup (oC r) (oC q);
         oR := cup (oR r) (oR q); oE := cup (oE r) (oE q); oU := cup (oU r) (oU q) |}
  | Frame body =>
      let r := post known x body p in
      {| oN := cup (oN r) (oR r); oB := none; oC := none; oR := none; oE := oE r; oU := oU r |}
  end.

Lemma has_cup : forall p q b, has (cup p q) b = true <-> has p b = true \/ has q b = true.
Proof. intros [a b] [c d] [|]; cbn; now rewrite orb_true_iff. Qed.

Lemma has_none : forall b, has none b = true <-> False.
Proof. intros [|]; cbn; split; try discriminate; contradiction. Qed.

Lemma get_join : forall r q o, get (join r q) o = cup (get r o) (get q o).
Proof. now intros r q []. Qed.

(** The states in which a loop body is entered. *)
Inductive reach (known : oracle) (x : positive) (body : stmt) : bool -> bool -> Prop :=
| reach_0 : forall b, reach known x body b b
| reach_S : forall b o b1 b2, o = Norm \/ o = Cnt ->
    run known x body b o b1 -> reach known x body b1 b2 -> reach known x body b b2.

Lemma reach_end : forall known x body b b1 o b2, reach known x body b b1 -> o = Norm \/ o = Cnt ->
  run known x body b1 o b2 -> reach known x body b b2.
Proof.
  induction 1; intros Ho Hr.
  - eapply reach_S; [exact Ho|exact Hr|apply reach_0].
  - eapply reach_S; [exact H|exact H0|auto].
Qed.

Lemma run_loop : forall known x f body els b o b2,
  run known x (Loop f body els) b o b2 <->
  exists h, reach known x body b h /\
    ((f = false /\ run known x els h o b2) \/
     (o = Norm /\ run known x body h Brk b2) \/
     ((o = Ret \/ o = Exn \/ o = Unbound) /\ run known x body h o b2)).
Proof.
  intros known x f body els b o b2. split.
  - intros H. remember (Loop f body els) as s eqn:Es.
    induction H; try discriminate Es; injection Es as E1 E2 E3 || injection Es as E2 E3; subst.
    + exists b. split; [apply reach_0|auto].
    + destruct (IHrun2 eq_refl) as (h & R & D). exists h. split; [|exact D].
      eapply reach_S; eauto.
    + exists b. split; [apply reach_0|auto].
    + exists b. split; [apply reach_0|auto].
  - intros (h & R & D). induction R.
    + destruct D as [(-> & D)|[(-> & D)|(Ho & D)]].
      * now apply R_loop_end.
      * now apply R_loop_break.
      * now apply R_loop_stop.
    + eapply R_loop_next; eauto.
Qed.

Section Closure.
  Variable step : states -> states.
  Hypothesis grows : forall p b, has p b = true -> has (step p) b = true.
  Hypothesis empty : step none = none.

  Lemma step_closed : forall p b, has (step (step (step p))) b = true -> has (step (step p)) b = true.
  Proof.
    intros p b H.
    destruct p as [[|] [|]].
    - destruct b; apply grows, grows; reflexivity.
    - pose proof (grows (true, false) false eq_refl) as G0.
      destruct (step (true, false)) as [u v] eqn:E1. cbn in G0. subst u.
      destruct v.
      + destruct b; apply grows; reflexivity.
      + rewrite E1 in *. now rewrite E1 in *.
    - pose proof (grows (false, true) true eq_refl) as G0.
      destruct (step (false, true)) as [u v] eqn:E1. cbn in G0. subst v.
      destruct u.
      + destruct b; apply grows; reflexivity.
      + rewrite E1 in *. now rewrite E1 in *.
    - change (false, false) with none in *. now rewrite !empty in *.
  Qed.
End Closure.

Lemma states_none : forall p, (forall b, has p b = true -> False) -> p = none.
Proof.
  intros [u v] H. generalize (H true) (H false); cbn. intros A B.
  destruct u, v; try reflexivity; exfalso; auto.
Qed.

(** [post] is exact. *)
Theorem post_exact : forall known x s p o b2,
  has (get (post known x s p) o) b2 = true <-> exists b, has p b = true /\ run known x s b o b2.
Proof.
  intros known x s. induction s as [xs|xs|xs| |a IHa c IHc|k a IHa c IHc|f body IHb els IHe| | | | |body IHb h IHh els IHe|body IHb];
    intros p o b2.
  - (* Use *)
    cbn [post]. destruct (reads x xs) eqn:R.
    + split.
      * destruct o; cbn [get oN oB oC oR oE oU]; intros H; try (apply has_none in H; contradiction).
        -- destruct b2; [|discriminate]. exists true. split; [exact H|].
           apply R_use. auto.
        -- exists b2. split; [exact H|apply R_use_exn].
        -- destruct b2; [discriminate|]. exists false. split; [exact H|]. now apply R_use_unbound.
      * intros (b & Hb & H). inversion H; subst; cbn [get oN oE oU].
        -- specialize (H1 R). subst. exact Hb.
        -- exact Hb.
        -- exact Hb.
    + split.
      * destruct o; cbn [get oN oB oC oR oE oU]; intros H; try (apply has_none in H; contradiction).
        -- exists b2. split; [exact H|]. apply R_use. rewrite R. discriminate.
        -- exists b2. split; [exact H|apply R_use_exn].
      * intros (b & Hb & H). inversion H; subst; cbn [get oN oE oU]; auto. congruence.
  - (* Def *)
    cbn [post]. destruct (reads x xs) eqn:R.
    + split.
      * destruct o; cbn [get oN oB oC oR oE oU]; intros H; try (apply has_none in H; contradiction).
        -- destruct b2; [|discriminate]. cbn in H. apply orb_true_iff in H.
           destruct H as [H|H]; [exists false|exists true]; (split; [exact H|]).
           ++ pose proof (R_def known x xs false) as Q. now rewrite R in Q.
           ++ pose proof (R_def known x xs true) as Q. now rewrite R in Q.
        -- destruct b2; cbn in H.
           ++ apply orb_true_iff in H. destruct H as [H|H]; [exists false|exists true]; (split; [exact H|]).
              ** pose proof (R_def_exn_late known x xs false) as Q. now rewrite R in Q.
              ** apply R_def_exn.
           ++ exists false. split; [exact H|apply R_def_exn].
      * intros (b & Hb & H). inversion H; subst; cbn [get oN oE oU]; rewrite ?R; match goal with E : has p ?c = true |- _ => destruct c; cbn in *; rewrite ?E, ?orb_true_r end; auto.
    + split.
      * destruct o; cbn [get oN oB oC oR oE oU]; intros H; try (apply has_none in H; contradiction).
        -- exists b2. split; [exact H|]. pose proof (R_def known x xs b2) as Q. now rewrite R in Q.
        -- exists b2. split; [exact H|apply R_def_exn].
      * intros (b & Hb & H). inversion H; subst; cbn [get oN oE oU]; rewrite ?R; auto.
  - (* Del *)
    cbn [post]. destruct (reads x xs) eqn:R.
    + split.
      * destruct o; cbn [get oN oB oC oR oE oU]; intros H; try (apply has_none in H; contradiction).
        destruct b2; [discriminate|]. cbn in H. apply orb_true_iff in H.
        destruct H as [H|H]; [exists false|exists true]; (split; [exact H|]).
        -- pose proof (R_del known x xs false) as Q. now rewrite R in Q.
        -- pose proof (R_del known x xs true) as Q. now rewrite R in Q.
      * intros (b & Hb & H). inversion H; subst; cbn [get oN oE oU]; rewrite ?R; match goal with E : has p ?c = true |- _ => destruct c; cbn in *; rewrite ?E, ?orb_true_r end; auto.
    + split.
      * destruct o; cbn [get oN oB oC oR oE oU]; intros H; try (apply has_none in H; contradiction).
        exists b2. split; [exact H|]. pose proof (R_del known x xs b2) as Q. now rewrite R in Q.
      * intros (b & Hb & H). inversion H; subst; cbn [get oN oE oU]; rewrite ?R; auto.
  - (* Skip *)
    cbn [post]. split.
    + destruct o; cbn [get oN oB oC oR oE oU]; intros H; try (apply has_none in H; contradiction).
      exists b2. split; [exact H|apply R_skip].
    + intros (b & Hb & H). inversion H; subst. exact Hb.
  - (* Seq *)
    assert (Eq : has (get (post known x (Seq a c) p) o) b2 = true <->
                 (o <> Norm /\ has (get (post known x a p) o) b2 = true) \/
                 has (get (post known x c (oN (post known x a p))) o) b2 = true).
    { destruct o; cbn [post get oN oB oC oR oE oU]; rewrite ?has_cup; intuition congruence. }
    rewrite Eq, IHa, IHc. split.
    + intros [(Ho & b & Hb & R)|(b1 & Hb1 & R)].
      * exists b. split; [exact Hb|]. now apply R_seq_stop.
      * apply (IHa p Norm) in Hb1. destruct Hb1 as (b & Hb & R1).
        exists b. split; [exact Hb|]. eapply R_seq; eauto.
    + intros (b & Hb & R). inversion R; subst.
      * right. exists b1. split; [|assumption]. apply (IHa p Norm). eauto.
      * left. split; [assumption|eauto].
  - (* Choice *)
    cbn [post]. rewrite get_join, has_cup, IHa, IHc. split.
    + intros [(b & Hb & R)|(b & Hb & R)]; exists b.
      * destruct (known k) as [[|]|] eqn:K; try (apply has_none in Hb; contradiction);
          (split; [exact Hb|apply R_left; [congruence|exact R]]).
      * destruct (known k) as [[|]|] eqn:K; try (apply has_none in Hb; contradiction);
          (split; [exact Hb|apply R_right; [congruence|exact R]]).
    + intros (b & Hb & R). inversion R; subst; [left|right]; exists b; (split; [|assumption]).
      * destruct (known k) as [[|]|]; auto; congruence.
      * destruct (known k) as [[|]|]; auto; congruence.
  - (* Loop *)
    set (step := fun h => let r := post known x body h in cup h (cup (oN r) (oC r))).
    set (h := step (step p)).
    assert (Eq : has (get (post known x (Loop f body els) p) o) b2 = true <->
                 has (get (post known x els (if f then none else h)) o) b2 = true \/
                 (o = Norm /\ has (get (post known x body h) Brk) b2 = true) \/
                 ((o = Ret \/ o = Exn \/ o = Unbound) /\ has (get (post known x body h) o) b2 = true)).
    { destruct o; cbn [post get oN oB oC oR oE oU]; fold (step p); fold (step (step p)); fold h; rewrite ?has_cup; intuition congruence. }
    assert (Hstep : forall q b, has (step q) b = true <-> has q b = true \/
                      exists b0 o0, has q b0 = true /\ (o0 = Norm \/ o0 = Cnt) /\ run known x body b0 o0 b).
    { intros q b. unfold step. rewrite !has_cup.
      change (oN (post known x body q)) with (get (post known x body q) Norm).
      change (oC (post known x body q)) with (get (post known x body q) Cnt).
      rewrite !IHb. split.
      - intros [H|[(b0 & H & R)|(b0 & H & R)]]; [auto| |]; right; exists b0; eauto.
      - intros [H|(b0 & o0 & H & [->| ->] & R)]; eauto. }
    assert (Hh : forall b, has h b = true <-> exists b0, has p b0 = true /\ reach known x body b0 b).
    { intros b. split.
      - unfold h. rewrite Hstep.
        assert (A : forall b, has (step p) b = true -> exists b0, has p b0 = true /\ reach known x body b0 b).
        { intros b1. rewrite Hstep. intros [H|(b0 & o0 & H & Ho & R)].
          - exists b1. split; [exact H|apply reach_0].
          - exists b0. split; [exact H|]. eapply reach_S; [exact Ho|exact R|apply reach_0]. }
        intros [H|(b0 & o0 & H & Ho & R)]; [auto|].
        destruct (A _ H) as (b3 & H3 & R3). exists b3. split; [exact H3|]. eapply reach_end; eauto.
      - intros (b0 & H & R).
        assert (H0 : has h b0 = true).
        { unfold h. rewrite Hstep. left. rewrite Hstep. now left. }
        clear H. induction R as [b0|b0 o0 b1 b3 Ho R1 R2 IH]; [exact H0|].
        apply IH. unfold h. apply (step_closed step).
        + intros q b H. rewrite Hstep. now left.
        + apply states_none. intros b. rewrite Hstep. intros [H|(b4 & o4 & H & _)]; apply has_none in H; auto.
        + rewrite Hstep. right. exists b0, o0. auto. }
    rewrite Eq, IHe, !IHb. split.
    + intros [(b & Hb & R)|[(-> & b & Hb & R)|(Ho & b & Hb & R)]].
      * destruct f; [apply has_none in Hb; contradiction|].
        apply Hh in Hb. destruct Hb as (b0 & H0 & R0). exists b0. split; [exact H0|].
        apply run_loop. exists b. split; [exact R0|]. left. auto.
      * apply Hh in Hb. destruct Hb as (b0 & H0 & R0). exists b0. split; [exact H0|].
        apply run_loop. exists b. split; [exact R0|]. right. left. auto.
      * apply Hh in Hb. destruct Hb as (b0 & H0 & R0). exists b0. split; [exact H0|].
        apply run_loop. exists b. split; [exact R0|]. right. right. auto.
    + intros (b0 & H0 & R). apply run_loop in R. destruct R as (b & R0 & D).
      assert (Hb : has h b = true) by (apply Hh; eauto).
      destruct D as [(-> & R)|[(-> & R)|(Ho & R)]].
      * left. exists b. auto.
      * right. left. split; [reflexivity|]. exists b. auto.
      * right. right. split; [exact Ho|]. exists b. auto.
  - cbn [post]. split.
    + destruct o; cbn [get oN oB oC oR oE oU]; intros H; try (apply has_none in H; contradiction).
      exists b2. split; [exact H|apply R_break].
    + intros (b & Hb & H). inversion H; subst. exact Hb.
  - cbn [post]. split.
    + destruct o; cbn [get oN oB oC oR oE oU]; intros H; try (apply has_none in H; contradiction).
      exists b2. split; [exact H|apply R_continue].
    + intros (b & Hb & H). inversion H; subst. exact Hb.
  - cbn [post]. split.
    + destruct o; cbn [get oN oB oC oR oE oU]; intros H; try (apply has_none in H; contradiction).
      exists b2. split; [exact H|apply R_return].
    + intros (b & Hb & H). inversion H; subst. exact Hb.
  - cbn [post]. split.
    + destruct o; cbn [get oN oB oC oR oE oU]; intros H; try (apply has_none in H; contradiction).
      exists b2. split; [exact H|apply R_raise].
    + intros (b & Hb & H). inversion H; subst. exact Hb.
  - (* Try *)
    set (r := post known x body p).
    assert (Eq : has (get (post known x (Try body h els) p) o) b2 = true <->
                 (o <> Norm /\ has (get r o) b2 = true) \/
                 has (get (post known x els (oN r)) o) b2 = true \/
                 has (get (post known x h (oE r)) o) b2 = true).
    { destruct o; cbn [post get join oN oB oC oR oE oU]; fold r; rewrite ?has_cup; intuition congruence. }
    rewrite Eq, IHe, IHh. split.
    + intros [(Ho & H)|[(b1 & H1 & R)|(b1 & H1 & R)]].
      * apply IHb in H. destruct H as (b & Hb & R). exists b. split; [exact Hb|].
        destruct o; try congruence; try (apply R_try_stop; [discriminate|discriminate|assumption]).
        now apply R_try_missed.
      * apply (IHb p Norm) in H1. destruct H1 as (b & Hb & R1). exists b. split; [exact Hb|]. eapply R_try_else; eauto.
      * apply (IHb p Exn) in H1. destruct H1 as (b & Hb & R1). exists b. split; [exact Hb|]. eapply R_try_caught; eauto.
    + intros (b & Hb & R). inversion R; subst.
      * right. left. exists b1. split; [|assumption]. apply (IHb p Norm). eauto.
      * right. right. exists b1. split; [|assumption]. apply (IHb p Exn). eauto.
      * left. split; [discriminate|]. apply IHb. eauto.
      * left. split; [assumption|]. apply IHb. eauto.
  - (* Frame *)
    set (r := post known x body p).
    assert (Eq : has (get (post known x (Frame body) p) o) b2 = true <->
                 (o = Norm /\ (has (get r Norm) b2 = true \/ has (get r Ret) b2 = true)) \/
                 ((o = Exn \/ o = Unbound) /\ has (get r o) b2 = true)).
    { destruct o; cbn [post get oN oB oC oR oE oU]; fold r; rewrite ?has_cup; rewrite ?has_none; intuition congruence. }
    rewrite Eq. unfold r. rewrite !IHb. split.
    + intros [(-> & [(b & Hb & R)|(b & Hb & R)])|(Ho & b & Hb & R)]; exists b; (split; [exact Hb|]).
      * apply (R_frame known x body b Norm); auto.
      * apply (R_frame known x body b Ret); auto.
      * now apply R_frame_stop.
    + intros (b & Hb & R). inversion R; subst.
      * left. split; [reflexivity|]. destruct H0 as [->| ->]; eauto.
      * right. eauto.
Qed.

(** Can name number [x] be read unbound, started in one of the states [p]? *)
Definition may_unbound (known : oracle) (x : positive) (s : stmt) (p : states) : bool :=
  let q := oU (post known x s p) in fst q || snd q.

Theorem may_unbound_exact : forall known x s p,
  may_unbound known x s p = true <-> exists b b2, has p b = true /\ run known x s b Unbound b2.
Proof.
  intros known x s p. unfold may_unbound. rewrite orb_true_iff.
  change (fst (oU (post known x s p))) with (has (get (post known x s p) Unbound) false).
  change (snd (oU (post known x s p))) with (has (get (post known x s p) Unbound) true).
  rewrite !post_exact. split.
  - intros [(b0 & H & R)|(b0 & H & R)]; eauto.
  - intros (b & [|] & H & R); [right|left]; eauto.
Qed.

(** Position of a name. *)
Fixpoint find_name (n : string) (l : list string) (i : nat) : option nat :=
  match l with
  | [] => None
  | h :: t => if String.eqb n h then Some i else find_name n t (S i)
  end.

Definition is_builtin (n : string) : bool := existsb (String.eqb n) builtins.

(** States of the k-th name of [f] when [f] starts. *)
Definition entry_states (m f : func) (k : nat) : states :=
  if Nat.ltb k (List.length (f_params f ++ f_closure f)) then (false, true)
  else if Nat.ltb k (List.length (f_params f ++ f_closure f ++ f_locals f)) then (true, false)
  else match nth_error (f_names f) k with
       | None => none
       | Some n =>
           if is_builtin n then (false, true)
           else match find_name n (f_locals m) 0 with
                | None => (true, false)
                | Some j => oN (post nothing_known (number (List.length (f_params m ++ f_closure m) + j)) (f_body m) (true, false))
                end
       end.

Definition may_read_unbound (m f : func) (k : nat) : bool :=
  may_unbound nothing_known (number k) (f_body f) (entry_states m f k).

Lemma find_name_spec : forall n l i,
  match find_name n l i with
  | Some j => exists d, j = i + d /\ nth_error l d = Some n
  | None => ~ In n l
  end.
Proof.
  intros n l. induction l as [|h t IH]; intros i; cbn [find_name].
  - intros [].
  - destruct (String.eqb_spec n h) as [->|E].
    + exists 0. split; [lia|reflexivity].
    + specialize (IH (S i)). destruct (find_name n t (S i)) as [j|].
      * destruct IH as (d & -> & H). exists (S d). split; [lia|exact H].
      * intros [H|H]; [congruence|auto].
Qed.

Lemma nth_error_NoDup : forall (l : list string) i j n, NoDup l ->
  nth_error l i = Some n -> nth_error l j = Some n -> i = j.
Proof.
  intros l i j n ND Hi Hj. eapply NoDup_nth_error; eauto.
  - apply nth_error_Some. congruence.
  - congruence.
Qed.

Lemma is_builtin_spec : forall n, is_builtin n = true <-> In n builtins.
Proof.
  intros n. unfold is_builtin. rewrite existsb_exists. split.
  - intros (y & H & E). apply String.eqb_eq in E. now subst.
  - intros H. exists n. split; [exact H|apply String.eqb_refl].
Qed.

(** [entry_states] are the states of [entry]; module names are listed once. *)
Lemma entry_states_exact : forall m f k b, NoDup (f_locals m) ->
  has (entry_states m f k) b = true <-> entry m f k b.
Proof.
  intros m f k b ND. unfold entry_states.
  destruct (Nat.ltb_spec k (List.length (f_params f ++ f_closure f))) as [L|L].
  { split.
    - destruct b; [|discriminate]. intros _. now apply E_given.
    - intros E. inversion E; subst; try reflexivity; rewrite ?app_length in *; lia. }
  destruct (Nat.ltb_spec k (List.length (f_params f ++ f_closure f ++ f_locals f))) as [L2|L2].
  { split.
    - destruct b; [discriminate|]. intros _. now apply E_local.
    - intros E. inversion E; subst; try reflexivity; rewrite ?app_length in *; lia. }
  destruct (nth_error (f_names f) k) as [n|] eqn:En.
  2: { split; [destruct b; discriminate|]. intros E. inversion E; subst; rewrite ?app_length in *; try lia; congruence. }
  destruct (is_builtin n) eqn:Bn.
  { apply is_builtin_spec in Bn. split.
    - destruct b; [|discriminate]. intros _. eapply E_builtin; eauto.
    - intros E. inversion E; subst; try reflexivity; rewrite ?app_length in *; try lia; congruence. }
  assert (NB : ~ In n builtins) by (rewrite <- is_builtin_spec; congruence).
  pose proof (find_name_spec n (f_locals m) 0) as F.
  destruct (find_name n (f_locals m) 0) as [j|].
  - destruct F as (d & -> & Hd). cbn [Nat.add].
    change (oN ?r) with (get r Norm). rewrite post_exact. split.
    + intros (b0 & H0 & R). destruct b0; [discriminate|]. eapply E_module; eauto.
    + intros E. exists false. split; [reflexivity|].
      inversion E; subst; rewrite ?app_length in *; try lia; try congruence.
      * assert (n0 = n) by congruence. subst n0.
        assert (j = d) by (eapply nth_error_NoDup; eauto). now subst j.
      * assert (n0 = n) by congruence. subst n0. apply nth_error_In in Hd. contradiction.
  - split.
    + destruct b; [discriminate|]. intros _. eapply E_missing; eauto.
    + intros E. inversion E; subst; try reflexivity; rewrite ?app_length in *; try lia; try congruence.
      assert (n0 = n) by congruence. subst n0. apply nth_error_In in H2. contradiction.
Qed.

Theorem may_read_unbound_exact : forall m f k, NoDup (f_locals m) ->
  may_read_unbound m f k = true <-> unbound_read m f k.
Proof.
  intros m f k ND. unfold may_read_unbound, unbound_read. rewrite may_unbound_exact.
  split; intros (b & b2 & H & R); exists b, b2; (split; [|exact R]); now apply (entry_states_exact m f k b ND).
Qed.
