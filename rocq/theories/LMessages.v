(** * Proofs for C175 *)
From Coq Require Import List String Ascii Bool Arith ZArith Lia.
From Verif Require Import MMessages SMessages.
Import ListNotations.
Local Open Scope string_scope.

Lemma app_nil_s : forall s : string, s ++ "" = s.
Proof. induction s; cbn; congruence. Qed.

Lemma app_assoc_s : forall a b c : string, (a ++ b) ++ c = a ++ (b ++ c).
Proof. induction a; intros; cbn; congruence. Qed.

Lemma read_app : forall a b m,
  read m (a ++ b) =
  match read m a with
  | None => None
  | Some (m1, o1) => match read m1 b with None => None | Some (m2, o2) => Some (m2, List.app o1 o2) end
  end.
Proof.
  induction a as [|c a IH]; intros b m; cbn.
  - destruct (read m b) as [[? ?]|]; reflexivity.
  - destruct (step m c) as [[m1 o1]|]; [|reflexivity]. rewrite IH.
    destruct (read m1 a) as [[m2 o2]|]; [|reflexivity].
    destruct (read m2 b) as [[m3 o3]|]; [|reflexivity].
    rewrite app_assoc. reflexivity.
Qed.

Definition chars (s : string) : list item := map Ch (list_ascii_of_string s).

Lemma eqb_false : forall a b : ascii, a <> b -> Ascii.eqb a b = false.
Proof. intros a b H. destruct (Ascii.eqb a b) eqn:E; [|reflexivity]. apply Ascii.eqb_eq in E. contradiction. Qed.

Lemma read_brace_free : forall s, brace_free s -> read Text s = Some (Text, chars s).
Proof.
  induction s as [|c s IH]; intros H; [reflexivity|].
  destruct H as (H1 & H2 & H3). cbn [read step].
  rewrite (eqb_false _ _ H1), (eqb_false _ _ H2), (IH H3). reflexivity.
Qed.

(** A name of a placeholder: no brace, no colon. *)
Fixpoint plain_name (s : string) : Prop :=
  match s with
  | EmptyString => True
  | String c s' => c <> "{"%char /\ c <> "}"%char /\ c <> ":"%char /\ plain_name s'
  end.

Lemma snoc_app : forall a c s, snoc a c ++ s = a ++ String c s.
Proof. intros. unfold snoc. rewrite app_assoc_s. reflexivity. Qed.

Lemma read_name : forall s n, plain_name s -> read (Name n) (s ++ "}") = Some (Text, [Field (n ++ s) ""]).
Proof.
  induction s as [|c s IH]; intros n H.
  - cbn. rewrite app_nil_s. reflexivity.
  - destruct H as (H1 & H2 & H3 & H4). cbn [append read step].
    rewrite (eqb_false _ _ H1), (eqb_false _ _ H2), (eqb_false _ _ H3), (IH _ H4), snoc_app. reflexivity.
Qed.

Lemma read_field : forall s, s <> "" -> plain_name s -> read Text ("{" ++ s ++ "}") = Some (Text, [Field s ""]).
Proof.
  intros [|c s] N H; [congruence|]. destruct H as (H1 & H2 & H3 & H4). cbn [append read].
  change (step Text "{") with (Some (Open, @nil item)). cbv iota beta. cbn [read step].
  rewrite (eqb_false _ _ H1), (eqb_false _ _ H2), (eqb_false _ _ H3), (read_name _ _ H4). reflexivity.
Qed.

(** ** Templates with open parts *)

Inductive seg : Type := SI (i : item) | SH | SN.

Fixpoint scan (p : list piece) : option (list seg) :=
  match p with
  | [] => Some []
  | Lit s :: r =>
      match parse s, scan r with
      | Some o, Some l => Some (List.app (map SI o) l)
      | _, _ => None
      end
  | Hole :: r => match scan r with Some l => Some (SH :: l) | None => None end
  | Numb :: r => match scan r with Some l => Some (SN :: l) | None => None end
  end.

(** What the open parts are read as. *)
Fixpoint expand (l : list seg) (h k : nat -> list item) : list item :=
  match l with
  | [] => []
  | SI i :: r => i :: expand r h k
  | SH :: r => List.app (h O) (expand r (fun i => h (S i)) k)
  | SN :: r => List.app (k O) (expand r h (fun i => k (S i)))
  end.

Lemma expand_app : forall o l h k, expand (List.app (map SI o) l) h k = List.app o (expand l h k).
Proof. induction o; intros; cbn; congruence. Qed.

Lemma read_template : forall p l h k ho ko,
  scan p = Some l ->
  (forall i, read Text (h i) = Some (Text, ho i)) ->
  (forall i, read Text (k i) = Some (Text, ko i)) ->
  read Text (template p h k) = Some (Text, expand l ho ko).
Proof.
  induction p as [|x p IH]; intros l h k ho ko Sc Hh Hk; cbn [scan] in Sc.
  - assert (l = []) by congruence. subst. reflexivity.
  - destruct x as [s| |]; cbn [template]; rewrite read_app.
    + unfold parse in Sc. destruct (read Text s) as [[[] o]|]; try discriminate.
      destruct (scan p) as [l'|] eqn:E; [|discriminate].
      assert (l = List.app (map SI o) l') by congruence. subst.
      rewrite (IH l' h k ho ko eq_refl Hh Hk). rewrite expand_app. reflexivity.
    + destruct (scan p) as [l'|] eqn:E; [|discriminate].
      assert (l = SH :: l') by congruence. subst. rewrite Hh.
      rewrite (IH l' _ k (fun i => ho (S i)) ko eq_refl (fun i => Hh (S i)) Hk). reflexivity.
    + destruct (scan p) as [l'|] eqn:E; [|discriminate].
      assert (l = SN :: l') by congruence. subst. rewrite Hk.
      rewrite (IH l' h _ ho (fun i => ko (S i)) eq_refl Hh (fun i => Hk (S i))). reflexivity.
Qed.

(** ** Checking the placeholders of a call *)

Fixpoint check (num : nat -> bool) (n : nat) (ks : list string) (nb : numbering) (l : list seg)
  : option (list nat * list string) :=
  match l with
  | [] => Some ([], [])
  | SH :: r | SN :: r | SI (Ch _) :: r => check num n ks nb r
  | SI (Field f spec) :: r =>
      let pos i nb' :=
        if (i <? n)%nat && (String.eqb spec "" || (number_spec spec && num i))
        then match check num n ks nb' r with Some (u, w) => Some (i :: u, w) | None => None end
        else None in
      if String.eqb f "" then
        match nb with
        | Undecided => pos O (Auto 1)
        | Auto k => pos k (Auto (S k))
        | Manual => None
        end
      else match number f with
           | Some i => match nb with Auto _ => None | _ => pos i Manual end
           | None =>
               if existsb (String.eqb f) ks && String.eqb spec ""
               then match check num n ks nb r with Some (u, w) => Some (u, f :: w) | None => None end
               else None
           end
  end.

(** The texts of the open parts appear one after the other. *)
Fixpoint count_seg (l : list seg) : nat :=
  match l with [] => 0 | SH :: r => S (count_seg r) | _ :: r => count_seg r end.

Lemma contains_cons : forall c t s, contains t s -> contains (String c t) s.
Proof. intros c t s (a & b & E). exists (String c a), b. cbn. congruence. Qed.

Lemma contains_app_r : forall a t s, contains t s -> contains (a ++ t) s.
Proof. intros a t s (x & y & E). exists (a ++ x), y. rewrite app_assoc_s. congruence. Qed.

Lemma contains_app_l : forall a t, contains (a ++ t) a.
Proof. intros a t. exists "", t. reflexivity. Qed.

Lemma shown_cons : forall W c t v, shown W v t -> shown W v (String c t).
Proof. intros W c t [s|n|s]; cbn; intros H; try (apply contains_cons; exact H). destruct H as (p & H). exists p. apply contains_cons. exact H. Qed.

Lemma shown_app_r : forall W a t v, shown W v t -> shown W v (a ++ t).
Proof. intros W a t [s|n|s]; cbn; intros H; try (apply contains_app_r; exact H). destruct H as (p & H). exists p. apply contains_app_r. exact H. Qed.

Lemma show_shown : forall W v spec a t, show W v spec = Some a -> shown W v (a ++ t).
Proof.
  intros W [s|n|s] spec a t; cbn; intros H.
  - destruct (spec =? "") eqn:E; [|discriminate]. assert (s = a) by congruence. subst. apply contains_app_l.
  - destruct ((spec =? "") || number_spec spec); [|discriminate]. assert (W n spec = a) by congruence. subst.
    exists spec. apply contains_app_l.
  - destruct (spec =? "") eqn:E; [|discriminate]. assert (s = a) by congruence. subst. apply contains_app_l.
Qed.

Lemma fill_chars : forall W args kws s nb l t,
  fill W args kws nb l = Some t ->
  fill W args kws nb (List.app (chars s) l) = Some (s ++ t).
Proof. induction s as [|c s IH]; intros nb l t H; [exact H|].
  change (chars (String c s)) with (Ch c :: chars s). cbn [List.app fill]. rewrite (IH _ _ _ H). reflexivity. Qed.

Lemma keyword_known : forall (kws : list (string * value)) f,
  existsb (String.eqb f) (map fst kws) = true -> exists v, keyword kws f = Some v.
Proof.
  induction kws as [|[k v] r IH]; intros f H; cbn in *; [discriminate|].
  rewrite String.eqb_sym in H. destruct (k =? f); [eauto|apply IH; exact H].
Qed.

Lemma show_ok : forall W v spec, spec = "" \/ (number_spec spec = true /\ is_number v) -> exists a, show W v spec = Some a.
Proof.
  intros W v spec [->|[H [n ->]]].
  - destruct v; cbn; eauto.
  - cbn. rewrite H, orb_true_r. eauto.
Qed.

Section Fill.
Variable W : writer.
Variable args : list value.
Variable kws : list (string * value).
Variable num : nat -> bool.
Hypothesis num_ok : forall i v, num i = true -> nth_error args i = Some v -> is_number v.

Definition good (l : list seg) (h k : nat -> string) (nb : numbering) (u : list nat) (w : list string) : Prop :=
  exists t, fill W args kws nb (expand l (fun i => chars (h i)) (fun i => chars (k i))) = Some t /\
    (forall i, In i u -> exists v, nth_error args i = Some v /\ shown W v t) /\
    (forall f, In f w -> exists v, keyword kws f = Some v /\ shown W v t) /\
    (forall i, (i < count_seg l)%nat -> contains t (h i)).

Lemma fill_check : forall l h k nb u w,
  check num (List.length args) (map fst kws) nb l = Some (u, w) -> good l h k nb u w.
Proof.
  induction l as [|s l IH]; intros h k nb u w C.
  - cbn in C. assert (u = [] /\ w = []) as [-> ->] by (split; congruence).
    exists "". split; [reflexivity|]. split; [intros ? []|]. split; [intros ? []|]. intros i Hi. exfalso. cbn in Hi. lia.
  - destruct s as [[c|f spec]| |].
    + cbn [check] in C. destruct (IH h k nb u w C) as (t & F & A & B & D).
      exists (String c t). cbn [expand fill]. rewrite F. split; [reflexivity|]. split; [|split].
      * intros i Hi. destruct (A i Hi) as (v & ? & ?). exists v. split; [assumption|]. apply shown_cons. assumption.
      * intros i Hi. destruct (B i Hi) as (v & ? & ?). exists v. split; [assumption|]. apply shown_cons. assumption.
      * intros i Hi. apply contains_cons. apply D. exact Hi.
    + assert (POS : forall i nb', 
        (if (i <? List.length args)%nat && ((spec =? "") || number_spec spec && num i)
         then match check num (List.length args) (map fst kws) nb' l with Some (u0, w0) => Some (i :: u0, w0) | None => None end
         else None) = Some (u, w) ->
        (forall v, nth_error args i = Some v -> lookup args kws nb f = Some (nb', v)) ->
        good (SI (Field f spec) :: l) h k nb u w).
      { intros i nb' E L.
        destruct (i <? List.length args)%nat eqn:Ei; [|discriminate]. cbn [andb] in E.
        destruct ((spec =? "") || number_spec spec && num i) eqn:Es; [|discriminate].
        destruct (check num (List.length args) (map fst kws) nb' l) as [[u0 w0]|] eqn:Ec; [|discriminate].
        assert (u = i :: u0 /\ w = w0) as [-> ->] by (split; congruence).
        destruct (IH h k nb' u0 w0 Ec) as (t & F & A & B & D).
        apply Nat.ltb_lt in Ei.
        destruct (nth_error args i) as [v|] eqn:En; [|apply nth_error_None in En; lia].
        assert (Sh : exists a, show W v spec = Some a).
        { apply show_ok. apply orb_true_iff in Es as [Es|Es].
          - left. apply String.eqb_eq. exact Es.
          - apply andb_true_iff in Es as [E1 E2]. right. split; [exact E1|]. apply (num_ok i v E2 En). }
        destruct Sh as (a & Sa).
        exists (a ++ t). cbn [expand fill]. rewrite (L v eq_refl), Sa, F. split; [reflexivity|]. split; [|split].
        - intros j [<-|Hj]; [exists v; split; [exact En|apply (show_shown W v spec); exact Sa]|].
          destruct (A j Hj) as (v' & ? & ?). exists v'. split; [assumption|]. apply shown_app_r. assumption.
        - intros j Hj. destruct (B j Hj) as (v' & ? & ?). exists v'. split; [assumption|]. apply shown_app_r. assumption.
        - intros j Hj. apply contains_app_r. apply D. exact Hj. }
      cbn [check] in C. destruct (f =? "") eqn:Ef.
      * destruct nb as [|m|]; [| |discriminate].
        -- apply (POS O (Auto 1) C). intros v Hv. unfold lookup. rewrite Ef, Hv. reflexivity.
        -- apply (POS m (Auto (S m)) C). intros v Hv. unfold lookup. rewrite Ef, Hv. reflexivity.
      * destruct (number f) as [i|] eqn:En.
        -- destruct nb as [|m|]; [|discriminate|].
           ++ apply (POS i Manual C). intros v Hv. unfold lookup. rewrite Ef, En, Hv. reflexivity.
           ++ apply (POS i Manual C). intros v Hv. unfold lookup. rewrite Ef, En, Hv. reflexivity.
        -- destruct (existsb (String.eqb f) (map fst kws)) eqn:Ek; [|discriminate]. cbn [andb] in C.
           destruct (spec =? "") eqn:Es; [|discriminate].
           destruct (check num (List.length args) (map fst kws) nb l) as [[u0 w0]|] eqn:Ec; [|discriminate].
           assert (u = u0 /\ w = f :: w0) as [-> ->] by (split; congruence).
           destruct (IH h k nb u0 w0 Ec) as (t & F & A & B & D).
           destruct (keyword_known kws f Ek) as (v & Hv).
           destruct (show_ok W v spec (or_introl (proj1 (String.eqb_eq _ _) Es))) as (a & Sa).
           exists (a ++ t). cbn [expand fill]. unfold lookup. rewrite Ef, En, Hv, Sa, F. split; [reflexivity|]. split; [|split].
           ++ intros j Hj. destruct (A j Hj) as (v' & ? & ?). exists v'. split; [assumption|]. apply shown_app_r. assumption.
           ++ intros j [<-|Hj]; [exists v; split; [exact Hv|apply (show_shown W v spec); exact Sa]|].
              destruct (B j Hj) as (v' & ? & ?). exists v'. split; [assumption|]. apply shown_app_r. assumption.
           ++ intros j Hj. apply contains_app_r. apply D. exact Hj.
    + cbn [check] in C. destruct (IH (fun i => h (S i)) k nb u w C) as (t & F & A & B & D).
      exists (h O ++ t). cbn [expand]. split; [apply fill_chars; exact F|]. split; [|split].
      * intros j Hj. destruct (A j Hj) as (v' & ? & ?). exists v'. split; [assumption|]. apply shown_app_r. assumption.
      * intros j Hj. destruct (B j Hj) as (v' & ? & ?). exists v'. split; [assumption|]. apply shown_app_r. assumption.
      * intros [|j] Hj; [apply contains_app_l|]. apply contains_app_r. apply (D j). cbn in Hj. lia.
    + cbn [check] in C. destruct (IH h (fun i => k (S i)) nb u w C) as (t & F & A & B & D).
      exists (k O ++ t). cbn [expand]. split; [apply fill_chars; exact F|]. split; [|split].
      * intros j Hj. destruct (A j Hj) as (v' & ? & ?). exists v'. split; [assumption|]. apply shown_app_r. assumption.
      * intros j Hj. destruct (B j Hj) as (v' & ? & ?). exists v'. split; [assumption|]. apply shown_app_r. assumption.
      * intros j Hj. apply contains_app_r. apply D. exact Hj.
Qed.
End Fill.

(** The check of one call. *)
Definition check_site (c : site) : bool :=
  forallb (fun p =>
    match scan p with
    | Some l =>
        match check (fun i => existsb (Nat.eqb i) (numbers_of c)) (nargs c) (keys c) Undecided l with
        | Some (u, w) =>
            (is_silent c || (forallb (fun i => existsb (Nat.eqb i) u) (seq 0 (nargs c)) &&
                             forallb (fun f => existsb (String.eqb f) w) (keys c)))
            && (holes p =? count_seg l)%nat
        | None => false
        end
    | None => false
    end) (templates c).

Lemma in_existsb_nat : forall i l, existsb (Nat.eqb i) l = true -> In i l.
Proof. intros i l H. apply existsb_exists in H as (x & Hx & E). apply Nat.eqb_eq in E. subst. exact Hx. Qed.

Lemma in_existsb_str : forall i l, existsb (String.eqb i) l = true -> In i l.
Proof. intros i l H. apply existsb_exists in H as (x & Hx & E). apply String.eqb_eq in E. subst. exact Hx. Qed.

(** Keywords given twice do not occur; the value found for a key is one given for it. *)
Lemma keyword_in : forall kws f v, keyword kws f = Some v -> In (f, v) kws.
Proof.
  induction kws as [|[k x] r IH]; intros f v H; cbn in H; [discriminate|].
  destruct (k =? f) eqn:E; [apply String.eqb_eq in E; left; congruence|right; apply IH; exact H].
Qed.

Lemma site_ok : forall c p W h k args kws,
  check_site c = true -> In p (templates c) -> fitting c args kws ->
  (forall i, brace_free (h i)) -> (forall i, brace_free (k i)) ->
  exists t, format W (template p h k) args kws = Some t /\
    (is_silent c = false ->
       (forall v, In v args -> shown W v t) /\
       (forall f, In f (keys c) -> exists v, In (f, v) kws /\ shown W v t)) /\
    (forall i, (i < holes p)%nat -> contains t (h i)).
Proof.
  intros c p W h k args kws C P (La & Lk & Nm) Hh Hk.
  unfold check_site in C. rewrite forallb_forall in C. specialize (C p P).
  destruct (scan p) as [l|] eqn:S; [|discriminate].
  destruct (check (fun i => existsb (Nat.eqb i) (numbers_of c)) (nargs c) (keys c) Undecided l) as [[u w]|] eqn:E; [|discriminate].
  apply andb_true_iff in C as [C C2]. apply Nat.eqb_eq in C2.
  rewrite <- La, <- Lk in E.
  assert (NO : forall i v, existsb (Nat.eqb i) (numbers_of c) = true -> nth_error args i = Some v -> is_number v).
  { intros i v Hi Hv. destruct (Nm i (in_existsb_nat _ _ Hi)) as (v' & Hv' & Q). congruence. }
  destruct (fill_check W args kws _ NO l h k Undecided u w E) as (t & F & A & B & D).
  exists t. unfold format, parse.
  rewrite (read_template p l h k _ _ S (fun i => read_brace_free _ (Hh i)) (fun i => read_brace_free _ (Hk i))).
  split; [exact F|]. split.
  - intros Q. rewrite Q in C. cbn [orb] in C. apply andb_true_iff in C as [C1 C3].
    rewrite forallb_forall in C1, C3. split.
    + intros v Hv. destruct (In_nth_error _ _ Hv) as (i & Hi).
      assert (Li : (i < nargs c)%nat) by (rewrite <- La; apply nth_error_Some; congruence).
      destruct (A i (in_existsb_nat _ _ (C1 i (proj2 (in_seq _ _ _) (conj (Nat.le_0_l i) Li))))) as (v' & Hv' & Sh).
      congruence.
    + intros f Hf. destruct (B f (in_existsb_str _ _ (C3 f Hf))) as (v & Hv & Sh).
      exists v. split; [apply keyword_in; exact Hv|exact Sh].
  - intros i Hi. apply D. lia.
Qed.

(** ** Failures *)

Lemma fill_unknown : forall W args n l nb,
  n <> "" -> number n = None -> In (Field n "") l -> fill W args [] nb l = None.
Proof.
  induction l as [|x l IH]; intros nb N1 N2 H0; [destruct H0|]. destruct H0 as [H|H].
  - subst x. cbn [fill]. unfold lookup. destruct (n =? "") eqn:E; [apply String.eqb_eq in E; contradiction|].
    rewrite N2. reflexivity.
  - destruct x as [c|f spec]; cbn [fill].
    + rewrite (IH nb N1 N2 H). reflexivity.
    + destruct (lookup args [] nb f) as [[nb' v]|]; [|reflexivity].
      rewrite (IH nb' N1 N2 H). destruct (show W v spec); reflexivity.
Qed.

Lemma in_expand : forall l j h k x, (j < count_seg l)%nat -> In x (h j) -> In x (expand l h k).
Proof.
  induction l as [|[i| |] l IH]; intros j h k x Hj Hx; cbn in Hj; [lia| | |]; cbn [expand].
  - right. apply (IH j); assumption.
  - apply in_or_app. destruct j as [|j]; [left; exact Hx|].
    right. apply (IH j (fun i => h (S i))); [lia|exact Hx].
  - apply in_or_app. right. apply (IH j); assumption.
Qed.

Definition check_open (c : site) : bool :=
  forallb (fun p => match scan p with Some l => (holes p =? count_seg l)%nat | None => false end) (templates c).

Lemma site_fails : forall c p W h k args j a n b,
  check_open c = true -> In p (templates c) -> (j < holes p)%nat ->
  (forall i, i <> j -> brace_free (h i)) -> (forall i, brace_free (k i)) ->
  h j = a ++ "{" ++ n ++ "}" ++ b -> brace_free a -> brace_free b ->
  n <> "" -> plain_name n -> number n = None ->
  format W (template p h k) args [] = None.
Proof.
  intros c p W h k args j a n b C P J Hh Hk E Ba Bb N1 N2 N3.
  unfold check_open in C. rewrite forallb_forall in C. specialize (C p P).
  destruct (scan p) as [l|] eqn:S; [|discriminate]. apply Nat.eqb_eq in C.
  set (ho := fun i => if Nat.eqb i j then List.app (chars a) (Field n "" :: chars b) else chars (h i)).
  assert (Ho : forall i, read Text (h i) = Some (Text, ho i)).
  { intros i. unfold ho. destruct (Nat.eqb i j) eqn:Ei.
    - apply Nat.eqb_eq in Ei. subst i. rewrite E.
      replace ("{" ++ n ++ "}" ++ b) with (("{" ++ n ++ "}") ++ b) by (rewrite !app_assoc_s; reflexivity).
      rewrite read_app, (read_brace_free _ Ba). rewrite read_app, (read_field _ N1 N2), (read_brace_free _ Bb). reflexivity.
    - apply Nat.eqb_neq in Ei. apply read_brace_free. apply Hh. exact Ei. }
  unfold format, parse.
  rewrite (read_template p l h k ho _ S Ho (fun i => read_brace_free _ (Hk i))).
  apply (fill_unknown W args n); [exact N1|exact N3|].
  apply (in_expand l j); [lia|]. unfold ho. rewrite Nat.eqb_refl. apply in_or_app. right. left. reflexivity.
Qed.
