(** * C175: messages, labels and file names can always be written and show the values they report *)
From Coq Require Import List String Ascii Bool Arith ZArith Lia.
From Verif Require Import MMessages MSrcMessages SMessages LMessages.
Import ListNotations.
Local Open Scope string_scope.

(** ** C175: what holds *)

Lemma all_checked : forallb check_site calls = true.
Proof. vm_compute. reflexivity. Qed.

(** Every call of the package, with whatever values, texts of the user without
    braces and writing of numbers: the text is made, it shows every value
    given to the call and every text that went into the template. *)
Theorem C175_messages_partial : forall c p W h k args kws,
  In c calls -> In p (templates c) -> fitting c args kws ->
  (forall i, brace_free (h i)) -> (forall i, brace_free (k i)) ->
  exists t, format W (template p h k) args kws = Some t /\
    (is_silent c = false ->
       (forall v, In v args -> shown W v t) /\
       (forall f, In f (keys c) -> exists v, In (f, v) kws /\ shown W v t)) /\
    (forall i, (i < holes p)%nat -> contains t (h i)).
Proof.
  intros c p W h k args kws Hc Hp Hf Hh Hk.
  apply (site_ok c p W h k args kws); try assumption.
  exact (proj1 (forallb_forall _ _) all_checked c Hc).
Qed.
Print Assumptions C175_messages_partial.

(** The calls whose template is known from the source: no condition on names
    is left, values may contain anything. *)
Definition closed (c : site) : bool := forallb (fun p => (holes p =? 0)%nat) (templates c).

Theorem C175_closed : forall c p W k args kws,
  In c calls -> closed c = true -> In p (templates c) -> fitting c args kws -> (forall i, brace_free (k i)) ->
  exists t, format W (template p (fun _ => "") k) args kws = Some t /\
    (is_silent c = false ->
       (forall v, In v args -> shown W v t) /\
       (forall f, In f (keys c) -> exists v, In (f, v) kws /\ shown W v t)).
Proof.
  intros c p W k args kws Hc Hcl Hp Hf Hk.
  destruct (C175_messages_partial c p W (fun _ => "") k args kws Hc Hp Hf (fun _ => I) Hk) as (t & F & A & _).
  exists t. split; assumption.
Qed.
Print Assumptions C175_closed.

Theorem C175_count :
  List.length calls = 721%nat /\ List.length (filter closed calls) = 683%nat /\
  List.length (filter (fun c => negb (closed c)) calls) = 38%nat /\
  List.length (filter (fun c => negb (closed c) && negb (late c)) calls) = 20%nat.
Proof. vm_compute. repeat split. Qed.
Print Assumptions C175_count.

(** A call of the list meeting the hypotheses: simenv.py 1989, names "tes" and
    "pump"; the text is the one a user would see. *)
Example C175_messages_case : exists c p t,
  In c calls /\ at_site c "simenv.py" 1989 = true /\ In p (templates c) /\
  fitting c [VText "tes"; VText "out"] [] /\
  format (fun _ _ => "") (template p (fun i => nth i ["tes"; "out"; "pump"; "in"] "") (fun _ => "")) [VText "tes"; VText "out"] [] = Some t /\
  contains t "While connecting part `tes` at port `out` with part `pump` at port `in`".
Proof.
  pose (c := nth 0 (filter (fun c => at_site c "simenv.py" 1989) calls) (mkSite "" 1 false 0 [] [])).
  exists c, (nth 0 (templates c) []).
  eexists. split; [|split; [|split; [|split; [|split]]]].
  - assert (M : In c (filter (fun c => at_site c "simenv.py" 1989) calls)) by (vm_compute; left; reflexivity).
    apply filter_In in M. exact (proj1 M).
  - vm_compute. reflexivity.
  - vm_compute. left. reflexivity.
  - split; [|split]; [vm_compute; reflexivity|vm_compute; reflexivity|]. intros i Hi. vm_compute in Hi. destruct Hi.
  - vm_compute. reflexivity.
  - exists "". eexists. vm_compute. reflexivity.
Qed.

(** ** C175: what fails *)

Lemma all_open : forallb check_open calls = true.
Proof. vm_compute. reflexivity. Qed.

Lemma no_keys : forallb (fun c => closed c || match keys c with [] => true | _ => false end) calls = true.
Proof. vm_compute. reflexivity. Qed.

(** Every one of the 38 calls whose template contains a text of the user fails
    as soon as that text contains a name in braces (such as LaTeX markup),
    whatever the values given. *)
Theorem C175_braces_refuted : forall c p W h k args kws j a n b,
  In c calls -> In p (templates c) -> map fst kws = keys c -> (j < holes p)%nat ->
  (forall i, i <> j -> brace_free (h i)) -> (forall i, brace_free (k i)) ->
  h j = a ++ "{" ++ n ++ "}" ++ b -> brace_free a -> brace_free b ->
  n <> "" -> plain_name n -> number n = None ->
  format W (template p h k) args kws = None.
Proof.
  intros c p W h k args kws j a n b Hc Hp Hk J Hh Hk' E Ba Bb N1 N2 N3.
  assert (Q := proj1 (forallb_forall _ _) no_keys c Hc). cbv beta in Q.
  apply orb_true_iff in Q as [Q|Q].
  - unfold closed in Q. rewrite forallb_forall in Q. specialize (Q p Hp). apply Nat.eqb_eq in Q. lia.
  - destruct (keys c) eqn:Ek; [|discriminate]. destruct kws; [|discriminate].
    apply (site_fails c p W h k args j a n b); try assumption.
    exact (proj1 (forallb_forall _ _) all_open c Hc).
Qed.
Print Assumptions C175_braces_refuted.

(** The calls of this kind that are made although nothing is wrong: the text of
    the message is built before the condition is tested (the statement is not an
    assert or a raise), so a correct call is rejected. *)
Definition early_open : list (string * positive) :=
  map (fun c => (file c, line c)) (filter (fun c => negb (closed c) && negb (late c)) calls).

Theorem C175_early_refuted : forall f l, In (f, l) [
    ("controls.py", 309%positive);            (* Controls: special actuators *)
    ("parts/pump.py", 238%positive);          (* Pump.__init__ *)
    ("parts/mixingvalve.py", 303%positive);   (* MixingValve.__init__ *)
    ("simenv.py", 1141%positive);             (* _initialize_actuator *)
    ("simenv.py", 1275%positive);             (* add_open_port *)
    ("simenv.py", 1488%positive);             (* assign_boundary_cond *)
    ("utility_functions.py", 1951%positive);  (* drawing of sensors *)
    ("utility_functions.py", 2304%positive)] ->
  exists c p, In c calls /\ file c = f /\ line c = l /\ late c = false /\ In p (templates c) /\
    forall W k args, (forall i, brace_free (k i)) ->
      format W (template p (fun i => if Nat.eqb i 0 then "T_{VL}" else "x") k) args [] = None.
Proof.
  intros f l H.
  assert (M : existsb (fun c => String.eqb (file c) f && Pos.eqb (line c) l && negb (late c) &&
                       existsb (fun p => (0 <? holes p)%nat) (templates c) && match keys c with [] => true | _ => false end) calls = true).
  { repeat (destruct H as [H|H]; [injection H as <- <-; vm_compute; reflexivity|]). destruct H. }
  apply existsb_exists in M as (c & Hc & M).
  apply andb_true_iff in M as [M Mk]. apply andb_true_iff in M as [M Mp]. apply andb_true_iff in M as [M Ml].
  apply andb_true_iff in M as [Mf Mn]. apply String.eqb_eq in Mf. apply Pos.eqb_eq in Mn.
  apply existsb_exists in Mp as (p & Hp & Mh). apply Nat.ltb_lt in Mh.
  exists c, p. split; [exact Hc|]. split; [exact Mf|]. split; [exact Mn|].
  split; [destruct (late c); [discriminate|reflexivity]|]. split; [exact Hp|].
  intros W k args Hk.
  destruct (keys c) eqn:Ek; [|discriminate].
  apply (C175_braces_refuted c p W (fun i => if Nat.eqb i 0 then "T_{VL}" else "x") k args [] 0 "T_" "VL" ""); try assumption.
  - symmetry. exact Ek.
  - intros i Hi. apply Nat.eqb_neq in Hi. cbv beta. rewrite Hi. cbn. repeat split; discriminate.
  - reflexivity.
  - cbn. repeat split; discriminate.
  - exact I.
  - discriminate.
  - cbn. repeat split; discriminate.
  - reflexivity.
Qed.
Print Assumptions C175_early_refuted.

(** assign_boundary_cond reports an index that is not an integer with a text
    that can only be made for a number (simenv.py 1508-1517): for a text, a list,
    None, ... as index the announced message never appears. *)
Theorem C175_index_refuted : exists c p, In c calls /\ file c = "simenv.py" /\ line c = 1509%positive /\ templates c = [p] /\
  forall W h k v a b, ~ is_number v -> format W (template p h k) [v; a; b] [] = None.
Proof.
  pose (c := nth 0 (filter (fun c => at_site c "simenv.py" 1509) calls) (mkSite "" 1 false 0 [] [])).
  exists c, (nth 0 (templates c) []).
  split; [|split; [|split; [|split]]].
  - assert (M : In c (filter (fun c => at_site c "simenv.py" 1509) calls)) by (vm_compute; left; reflexivity).
    apply filter_In in M. exact (proj1 M).
  - vm_compute. reflexivity.
  - vm_compute. reflexivity.
  - vm_compute. reflexivity.
  - intros W h k v a b N.
    assert (Q : exists s r, nth 0 (templates c) [] = [Lit s] /\ parse s = Some r /\
              exists u w, r = List.app (map Ch (list_ascii_of_string u)) (Field "2" "" :: w) /\
              exists x y, w = List.app (map Ch (list_ascii_of_string x)) (Field "0" "G" :: y)).
    { eexists. eexists. split; [vm_compute; reflexivity|]. split; [vm_compute; reflexivity|].
      exists "Error while assigning boundary condition to: `". eexists. split; [vm_compute; reflexivity|].
      exists ("`" ++ String (ascii_of_nat 10) "`array_index="). eexists. vm_compute. reflexivity. }
    destruct Q as (s & r & E & P & u & w & Eu & x & y & Ex). rewrite E. cbn [template]. rewrite app_nil_s.
    unfold format. rewrite P, Eu, Ex.
    assert (F0 : forall s l nb, fill W [v; a; b] [] nb l = None -> fill W [v; a; b] [] nb (List.app (map Ch (list_ascii_of_string s)) l) = None).
    { induction s0 as [|c0 s0 IH]; intros l nb H; cbn; [exact H|]. rewrite (IH _ _ H). reflexivity. }
    apply F0. cbn [fill]. change (lookup [v; a; b] [] Undecided "2") with (Some (Manual, b)). cbv iota beta.
    rewrite (F0 x (Field "0" "G" :: y) Manual).
    + destruct (show W b ""); reflexivity.
    + cbn [fill]. change (lookup [v; a; b] [] Manual "0") with (Some (Manual, v)). cbv iota beta.
      destruct v as [z|z|z]; try reflexivity. exfalso. apply N. exists z. reflexivity.
Qed.
Print Assumptions C175_index_refuted.

(** The calls that are given a value and show nothing of it: the template has no
    placeholder left (controls.py 586: the name of the missing argument,
    simenv.py 1488: what the boundary condition was assigned to). *)
Theorem C175_silent_refuted : forall x, In x silent -> exists c p,
  In c calls /\ file c = fst x /\ line c = snd x /\ In p (templates c) /\ nargs c = 1%nat /\
  forall W h k v v', (forall i, brace_free (h i)) -> (forall i, brace_free (k i)) ->
    format W (template p h k) [v] [] = format W (template p h k) [v'] [].
Proof.
  intros x H.
  assert (M : existsb (fun c => String.eqb (file c) (fst x) && Pos.eqb (line c) (snd x) && (nargs c =? 1)%nat &&
     existsb (fun p => match scan p with Some l => forallb (fun s => match s with SI (Field _ _) => false | _ => true end) l | None => false end) (templates c)) calls = true).
  { repeat (destruct H as [<-|H]; [vm_compute; reflexivity|]). destruct H. }
  apply existsb_exists in M as (c & Hc & M).
  apply andb_true_iff in M as [M Mp]. apply andb_true_iff in M as [M Mn]. apply andb_true_iff in M as [Mf Ml].
  apply String.eqb_eq in Mf. apply Pos.eqb_eq in Ml. apply Nat.eqb_eq in Mn.
  apply existsb_exists in Mp as (p & Hp & Mh).
  exists c, p. split; [exact Hc|]. split; [exact Mf|]. split; [exact Ml|]. split; [exact Hp|]. split; [exact Mn|].
  intros W h k v v' Hh Hk.
  destruct (scan p) as [l|] eqn:E; [|discriminate].
  unfold format, parse.
  rewrite (read_template p l h k _ _ E (fun i => read_brace_free _ (Hh i)) (fun i => read_brace_free _ (Hk i))).
  clear - Mh. revert h k. induction l as [|s l IH]; intros h k; [reflexivity|].
  cbn [forallb] in Mh. apply andb_true_iff in Mh as [M1 M2].
  assert (CH : forall s l l', fill W [v] [] Undecided l = fill W [v'] [] Undecided l' ->
     fill W [v] [] Undecided (List.app (chars s) l) = fill W [v'] [] Undecided (List.app (chars s) l')).
  { induction s0 as [|c0 s0 IHs]; intros a b H; [exact H|]. change (chars (String c0 s0)) with (Ch c0 :: chars s0).
    cbn [List.app fill]. rewrite (IHs _ _ H). reflexivity. }
  destruct s as [[c0|f sp]| |]; cbn [expand].
  - cbn [fill]. rewrite (IH M2 h k). reflexivity.
  - discriminate.
  - apply CH. apply (IH M2 (fun i => h (S i)) k).
  - apply CH. apply (IH M2 h (fun i => k (S i))).
Qed.
Print Assumptions C175_silent_refuted.

(** Numbered placeholders in decimal notation: one more digit [c] makes ten times the index plus that digit. *)
Lemma digit_plain c d : digit c = Some d -> Ascii.eqb c "{" = false /\ Ascii.eqb c "}" = false /\ Ascii.eqb c ":" = false.
Proof.
  intro H. repeat split; (destruct (Ascii.eqb_spec c "{") as [->|]; [discriminate|]); (destruct (Ascii.eqb_spec c "}") as [->|]; [discriminate|]);
    (destruct (Ascii.eqb_spec c ":") as [->|]; [discriminate|]); reflexivity.
Qed.
Lemma digits_snoc s c d : forall a k, digits a s = Some k -> digit c = Some d -> digits a (snoc s c) = Some (10 * k + d)%nat.
Proof.
  unfold snoc. induction s as [|x s IH]; intros a k H D; cbn [digits append] in *; [injection H as <-; now rewrite D|].
  destruct (digit x); [|discriminate]. apply IH; assumption.
Qed.
Lemma read_digits s : forall n a k, digits a s = Some k -> read (Name n) (s ++ "}") = Some (Text, [Field (n ++ s) ""]).
Proof.
  induction s as [|x s IH]; intros n a k H; cbn [append].
  - cbn. assert (E : forall m, m ++ "" = m) by (induction m as [|y m I]; cbn; [reflexivity|now rewrite I]). now rewrite E.
  - cbn [digits] in H. destruct (digit x) as [d|] eqn:D; [|discriminate]. destruct (digit_plain x d D) as (E1 & E2 & E3).
    cbn [read step]. rewrite E1, E2, E3, (IH (snoc n x) _ _ H). cbn [List.app]. do 3 f_equal. unfold snoc.
    assert (E : forall m, (m ++ String x "") ++ s = m ++ String x s) by (induction m as [|y m I]; cbn; [reflexivity|now rewrite I]). now rewrite E.
Qed.
Theorem C175_decimal : forall W args s c k d v, number s = Some k -> digit c = Some d -> nth_error args (10 * k + d) = Some (VText v) ->
  format W ("{" ++ snoc s c ++ "}") args [] = Some v.
Proof.
  intros W args s c k d v N Dc A.
  assert (Ns : number (snoc s c) = Some (10 * k + d)%nat).
  { destruct s as [|x s]; [discriminate|]. exact (digits_snoc (String x s) c d 0 k N Dc). }
  destruct (snoc s c) as [|x t] eqn:E; [discriminate|]. cbn [number] in Ns.
  assert (P : parse ("{" ++ String x t ++ "}") = Some [Field (String x t) ""]).
  { unfold parse. cbn [append]. cbn [read step]. change (Ascii.eqb "{" "{") with true. cbv iota.
    cbn [digits] in Ns. destruct (digit x) as [e|] eqn:D; [|discriminate]. destruct (digit_plain x e D) as (E1 & E2 & E3).
    cbn [read step]. rewrite E1, E2, E3, (read_digits t (snoc "" x) _ _ Ns). reflexivity. }
  unfold format. rewrite P. cbn [fill lookup]. unfold lookup. cbn [String.eqb]. unfold number. rewrite Ns, A. cbn [show fill].
  change (String.eqb "" "") with true. cbv iota.
  assert (E0 : forall m, m ++ "" = m) by (induction m as [|y m I]; cbn; [reflexivity|now rewrite I]). now rewrite E0.
Qed.
Print Assumptions C175_decimal.
Example C175_decimal_ex : number "1" = Some 1%nat /\ digit "0" = Some 0%nat /\
  format (fun _ _ => "") "{10}" (List.app (repeat (VText "p") 10) [VText "q"]) [] = Some "q".
Proof. vm_compute. repeat split. Qed.

(** The reader of templates on small cases. *)
Example C175_format_cases :
  format (fun _ _ => "1.50") "a {0} {{b}} {1:.2f}" [VText "{x}"; VNum 3] [] = Some "a {x} {b} 1.50" /\
  format (fun _ _ => "") "{} {}" [VText "p"; VText "q"] [] = Some "p q" /\
  format (fun _ _ => "") "{path}_{name}" [] [("path", VText "/tmp"); ("name", VText "sim")] = Some "/tmp_sim" /\
  format (fun _ _ => "") "{} {0}" [VText "p"] [] = None /\
  format (fun _ _ => "") "{1}" [VText "p"] [] = None /\
  format (fun _ _ => "") "{x}" [VText "p"] [] = None /\
  format (fun _ _ => "") "{0:G}" [VText "p"] [] = None /\
  format (fun _ _ => "") "a } b" [] [] = None /\
  format (fun _ _ => "") "a {" [] [] = None.
Proof. vm_compute. repeat split. Qed.
