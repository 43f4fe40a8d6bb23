(** * C177: an assigned series acts on the variable it is assigned to. *)
From Coq Require Import Reals List String ZArith Lia Arith Bool.
From Verif Require Import MAssign MSrcInit.
Import ListNotations.
Local Open Scope Z_scope.

(** ** Statements *)
(** The element an index of a python sequence of length [n] denotes. *)
Definition element (n : nat) (i : Z) : option nat :=
  if (0 <=? i) && (i <? Z.of_nat n) then Some (Z.to_nat i)
  else if (- Z.of_nat n <=? i) && (i <? 0) then Some (Z.to_nat (i + Z.of_nat n))
  else None.
(** What runs before and after the step function leaves an element of an array alone. *)
Definition leaves (f : store -> store) (id e : nat) : Prop :=
  forall h, nth_error (f h id) e = nth_error (h id) e /\ List.length (f h id) = List.length (h id).
(** ... does not read an array: stores that agree elsewhere agree elsewhere afterwards. *)
Definition apart (id : nat) (h h' : store) : Prop := forall k, k <> id -> h k = h' k.
Definition blind (f : store -> store) (id : nat) : Prop := forall h h', apart id h h' -> apart id (f h) (f h').

Lemma set_nth_length : forall l i x, List.length (set_nth l i x) = List.length l.
Proof. induction l as [|a l IH]; intros [|i] x; cbn; auto. Qed.
Lemma set_nth_same : forall l i x, (i < List.length l)%nat -> nth_error (set_nth l i x) i = Some x.
Proof. induction l as [|a l IH]; intros [|i] x Hi; cbn in *; try lia; auto. apply IH; lia. Qed.
Lemma set_nth_other : forall l i j x, i <> j -> nth_error (set_nth l i x) j = nth_error l j.
Proof. induction l as [|a l IH]; intros [|i] [|j] x Hi; cbn; auto; try lia. Qed.
Lemma put_same : forall h id l, put h id l id = l. Proof. intros. unfold put. rewrite Nat.eqb_refl. reflexivity. Qed.
Lemma put_other : forall h id l k, k <> id -> put h id l k = h k.
Proof. intros h id l k Hk. unfold put. apply Nat.eqb_neq in Hk. rewrite Hk. reflexivity. Qed.

Lemma accepted_view : forall w var id i w' v e, assign_part w var (Some i) = Accepted w' v -> attr w var = Some (Arr id) ->
  element (List.length (heap w id)) i = Some e -> i <> -1 -> v = mkV id e 1 /\ (e < List.length (heap w id))%nat.
Proof.
  intros w var id i w' v e HA HV HE Hi.
  unfold assign_part in HA. rewrite HV in HA. destruct (i <? Z.of_nat (List.length (heap w id))) eqn:Q; [|discriminate]. injection HA as _ <-.
    apply Z.ltb_lt in Q. unfold element in HE. destruct ((0 <=? i) && (i <? Z.of_nat (List.length (heap w id)))) eqn:Q1.
    - injection HE as <-. apply andb_true_iff in Q1 as [Q1 _]. apply Z.leb_le in Q1. unfold cut, place.
      replace (i <? 0) with false by (symmetry; apply Z.ltb_ge; lia). replace (i + 1 <? 0) with false by (symmetry; apply Z.ltb_ge; lia).
      split; [f_equal; lia | lia].
    - destruct ((- Z.of_nat (List.length (heap w id)) <=? i) && (i <? 0)) eqn:Q2; [|discriminate]. injection HE as <-.
      apply andb_true_iff in Q2 as [Q2 Q3]. apply Z.leb_le in Q2. apply Z.ltb_lt in Q3. unfold cut, place.
      replace (i <? 0) with true by (symmetry; apply Z.ltb_lt; lia). replace (i + 1 <? 0) with true by (symmetry; apply Z.ltb_lt; lia).
      split; [f_equal; lia | lia].
Qed.
(** A series for one element of an array that the step function is given: in each step after the first, the step function
    finds the value of the series there. *)
Theorem C177_acts : forall T pre calc post args y w var id i w' v init h n j e,
  assign_part w var (Some i) = Accepted w' v -> attr w var = Some (Arr id) ->
  element (List.length (heap w id)) i = Some e -> i <> -1 -> id <> T ->
  nth_error args j = Some (Arr id) ->
  List.length (h id) = List.length (heap w id) ->
  leaves pre id e -> (forall o r, leaves (post o r) id e) ->
  exists tr h', steps T pre calc post args v y n init h = Some (tr, h') /\ List.length tr = n /\
    forall k o r, nth_error (rev tr) k = Some (o, r) ->
      exists l, nth_error o j = Some (OArr l) /\
        nth_error l e = (if Nat.eqb k 0 then nth_error (h id) e else Some (y (k - 1)%nat)).
Proof.
  intros T pre calc post args y w var id i w' v init h n j e HA HV HE Hi HT Hj HL HP HQ.
  pose proof (accepted_view _ _ _ _ _ _ _ HA HV HE Hi) as HVW.
  destruct HVW as [-> He]. clear HA.
  assert (Inv : forall n tr h', steps T pre calc post args (mkV id e 1) y n init h = Some (tr, h') ->
    List.length tr = n /\ List.length (h' id) = List.length (h id) /\
    nth_error (h' id) e = (if Nat.eqb n 0 then nth_error (h id) e else Some (y (n - 1)%nat)) /\
    forall k o r, nth_error (rev tr) k = Some (o, r) -> exists l, nth_error o j = Some (OArr l) /\
      nth_error l e = (if Nat.eqb k 0 then nth_error (h id) e else Some (y (k - 1)%nat))).
  { clear n. induction n as [|n IH]; intros tr h' HR; cbn [steps] in HR.
    - injection HR as <- <-. repeat split; auto. intros [|k] o r K; discriminate.
    - destruct (steps T pre calc post args (mkV id e 1) y n init h) as [[tr0 h0]|]; [|discriminate].
      destruct (IH _ _ eq_refl) as (L0 & LH & LE & TR). clear IH.
      unfold one, write in HR. cbn [v_len v_arr v_from] in HR.
      set (last := match tr0 with [] => init | (_, r) :: _ => r end) in *. set (h2 := put (pre h0) T last) in *.
      set (o0 := map (look h2) args) in *. injection HR as <- <-.
      assert (E2 : h2 id = pre h0 id) by (unfold h2; apply put_other; exact HT).
      destruct (HP h0) as [P1 P2]. destruct (HQ o0 (calc o0) h2) as [Q1 Q2]. rewrite E2 in Q2.
      split; [cbn; lia|]. split; [rewrite put_same, set_nth_length; lia|].
      split; [rewrite put_same; cbn [Nat.eqb]; replace (S n - 1)%nat with n by lia; apply set_nth_same; lia|].
      intros k o r K. cbn [rev] in K.
      destruct (lt_eq_lt_dec k n) as [[Hk|Hk]|Hk].
      + rewrite nth_error_app1 in K by (rewrite rev_length; lia). exact (TR _ _ _ K).
      + subst k. rewrite nth_error_app2 in K by (rewrite rev_length; lia). rewrite rev_length, L0, Nat.sub_diag in K. cbn in K. injection K as <- <-.
        exists (h2 id). split; [unfold o0; rewrite nth_error_map, Hj; reflexivity|]. rewrite E2, P1. exact LE.
      + rewrite nth_error_app2 in K by (rewrite rev_length; lia). rewrite rev_length, L0 in K.
        destruct (k - n)%nat as [|m] eqn:D; [lia|]. destruct m; discriminate. }
  assert (Ex : exists tr h', steps T pre calc post args (mkV id e 1) y n init h = Some (tr, h')).
  { clear Inv. induction n as [|n (tr & h0 & IH)]; cbn [steps]; [eauto|]. rewrite IH. unfold one, write. cbn [v_len]. eauto. }
  destruct Ex as (tr & h0 & HR). destruct (Inv _ _ _ HR) as (L & _ & _ & TR). exists tr, h0. repeat split; assumption.
Qed.
Print Assumptions C177_acts.
(** Writing a value of the series changes this element and nothing else. *)
Theorem C177_only : forall w var id i w' v e h x h',
  assign_part w var (Some i) = Accepted w' v -> attr w var = Some (Arr id) ->
  element (List.length (heap w id)) i = Some e -> i <> -1 -> List.length (h id) = List.length (heap w id) ->
  write h v x = Some h' ->
  (forall k, k <> id -> h' k = h k) /\ List.length (h' id) = List.length (h id) /\
  forall m, nth_error (h' id) m = if Nat.eqb m e then Some x else nth_error (h id) m.
Proof.
  intros w var id i w' v e h x h' HA HV HE Hi HL HW. destruct (accepted_view _ _ _ _ _ _ _ HA HV HE Hi) as [-> He].
  unfold write in HW. cbn [v_len v_arr v_from] in HW. injection HW as <-. split; [intros k Hk; apply put_other; exact Hk|].
  rewrite put_same. split; [apply set_nth_length|]. intro m. destruct (Nat.eqb_spec m e) as [->|N]; [apply set_nth_same; lia|].
  apply set_nth_other. congruence.
Qed.
Print Assumptions C177_only.

(** A series for the temperatures 'T' (named in the documentation): the results are the same for every series. *)
Lemma apart_map : forall args (id : nat) h h', (forall k, h k = h' k) -> map (look h) args = map (look h') args.
Proof. intros args id h h' E. apply map_ext. intros [r|k]; cbn; [reflexivity | rewrite E; reflexivity]. Qed.
Theorem C177_temperature_refuted : forall T pre calc post args y y' v init h n,
  v_arr v = T -> v_len v <> 0%nat -> blind pre T -> (forall o r h h', (forall k, h k = h' k) -> forall k, post o r h k = post o r h' k) ->
  exists tr h1 h2, steps T pre calc post args v y n init h = Some (tr, h1) /\ steps T pre calc post args v y' n init h = Some (tr, h2).
Proof.
  intros T pre calc post args y y' v init h n HV HL HB HQ.
  assert (K : exists tr h1 h2, steps T pre calc post args v y n init h = Some (tr, h1) /\ steps T pre calc post args v y' n init h = Some (tr, h2) /\ apart T h1 h2).
  { induction n as [|n (tr & h1 & h2 & S1 & S2 & A)]; cbn [steps].
    - exists [], h, h. repeat split; intros k _; reflexivity.
    - rewrite S1, S2. unfold one, write. destruct (v_len v) as [|m]; [congruence|].
      set (last := match tr with [] => init | (_, r) :: _ => r end).
      assert (E : forall k, put (pre h1) T last k = put (pre h2) T last k).
      { intro k. destruct (Nat.eq_dec k T) as [->|Hk]; [rewrite !put_same; reflexivity|]. rewrite !put_other by exact Hk. exact (HB _ _ A k Hk). }
      rewrite <- (apart_map args T _ _ E). set (o := map (look (put (pre h1) T last)) args).
      do 3 eexists. split; [reflexivity|]. split; [reflexivity|]. intros k Hk. rewrite HV, !put_other by exact Hk. apply HQ. exact E. }
  destruct K as (tr & h1 & h2 & S1 & S2 & _). eauto.
Qed.
Print Assumptions C177_temperature_refuted.

(** A series for a number: the attribute gets a new array, the arguments keep the number.  The results are the same for every
    series. *)
Theorem C177_number_refuted : forall T pre calc post w var r y y' init n,
  attr w var = Some (Num r) ->
  (forall k id, nth_error (taken w) k = Some (Arr id) -> (id < next w)%nat) -> (T < next w)%nat ->
  blind pre (next w) -> (forall o r', blind (post o r') (next w)) ->
  exists w' v, assign_part w var (Some 0) = Accepted w' v /\ attr w' var = Some (Arr (v_arr v)) /\ v_len v = 1%nat /\
   exists tr h1 h2, steps T pre calc post (taken w') v y n init (heap w') = Some (tr, h1) /\
                    steps T pre calc post (taken w') v y' n init (heap w') = Some (tr, h2).
Proof.
  intros T pre calc post w var r y y' init n HV HC HT HP HQ. unfold assign_part. rewrite HV.
  set (h0 := put (heap w) (next w) [r]) in *. cbn [heap].
  assert (L : List.length (h0 (next w)) = 1%nat) by (unfold h0; rewrite put_same; reflexivity). rewrite L.
  change (0 <? Z.of_nat 1) with true. cbn iota. do 2 eexists. split; [reflexivity|]. cbn [taken heap attr].
  split; [unfold setattr, cut; cbn; rewrite String.eqb_refl; reflexivity|]. split; [reflexivity|].
  assert (K : exists tr h1 h2, steps T pre calc post (taken w) (cut (next w) 1 0) y n init h0 = Some (tr, h1) /\
                               steps T pre calc post (taken w) (cut (next w) 1 0) y' n init h0 = Some (tr, h2) /\ apart (next w) h1 h2).
  { induction n as [|n (tr & h1 & h2 & S1 & S2 & A)]; cbn [steps].
    - exists [], h0, h0. repeat split; intros k _; reflexivity.
    - rewrite S1, S2. unfold one, write. change (v_len (cut (next w) 1 0)) with 1%nat. cbn iota.
      set (last := match tr with [] => init | (_, r) :: _ => r end).
      assert (E : apart (next w) (put (pre h1) T last) (put (pre h2) T last)).
      { intros k Hk. unfold put. destruct (Nat.eqb k T); [reflexivity|]. exact (HP _ _ A k Hk). }
      assert (M : map (look (put (pre h2) T last)) (taken w) = map (look (put (pre h1) T last)) (taken w)).
      { apply map_ext_in. intros [x|id] Hin; cbn; [reflexivity|]. f_equal. symmetry. apply E. apply In_nth_error in Hin as (k & Hk). specialize (HC _ _ Hk). lia. }
      rewrite M. set (o := map (look (put (pre h1) T last)) (taken w)).
      do 3 eexists. split; [reflexivity|]. split; [reflexivity|]. intros k Hk. cbn [v_arr cut]. rewrite !put_other by exact Hk. exact (HQ _ _ _ _ E k Hk). }
  destruct K as (tr & h1 & h2 & S1 & S2 & _). eauto.
Qed.
Print Assumptions C177_number_refuted.

(** The last element, -1, is accepted for every array; then no step can be done. *)
Theorem C177_last_refuted : forall w var id T pre calc post args y init h n,
  attr w var = Some (Arr id) ->
  exists v, assign_part w var (Some (-1)) = Accepted w v /\ steps T pre calc post args v y (S n) init h = None.
Proof.
  intros w var id T pre calc post args y init h n HV. unfold assign_part. rewrite HV.
  replace (-1 <? Z.of_nat (List.length (heap w id))) with true by (symmetry; apply Z.ltb_lt; lia).
  eexists. split; [reflexivity|]. set (m := List.length (heap w id)).
  assert (L : v_len (cut id m (-1)) = 0%nat). { unfold cut, place. cbn [v_len]. change (-1 + 1 <? 0) with false. change (-1 <? 0) with true. cbn iota. lia. }
  induction n as [|n IH]; [cbn [steps]; unfold one, write; rewrite L; reflexivity|].
  cbn [steps] in *. destruct (steps T pre calc post args (cut id m (-1)) y n init h) as [[tr h0]|]; [|reflexivity].
  unfold one, write in *. rewrite L in *. reflexivity.
Qed.
Print Assumptions C177_last_refuted.
(** An index below the array is accepted, too; indices above are rejected. *)
Theorem C177_index : forall w var id i, attr w var = Some (Arr id) ->
  (i < Z.of_nat (List.length (heap w id)) -> exists v, assign_part w var (Some i) = Accepted w v) /\
  (Z.of_nat (List.length (heap w id)) <= i -> assign_part w var (Some i) = Rejected) /\ assign_part w var None = Crashed.
Proof.
  intros w var id i HV. unfold assign_part. rewrite HV. split; [|split; [|reflexivity]]; intro Hi.
  - apply Z.ltb_lt in Hi. rewrite Hi. eauto.
  - apply Z.ltb_ge in Hi. rewrite Hi. reflexivity.
Qed.
Print Assumptions C177_index.

(** The name T_amb of the documentation: no code assigns such an attribute to any object, so every part rejects it. *)
Theorem C177_name_refuted : forall w idx,
  (forall s, attr w s <> None -> In s assigned) -> assign_part w "T_amb" idx = Rejected.
Proof.
  intros w idx HN. unfold assign_part. destruct (attr w "T_amb") eqn:E; [|reflexivity]. exfalso.
  assert (I : In "T_amb"%string assigned) by (apply HN; congruence).
  assert (C : existsb (String.eqb "T_amb") assigned = false) by (vm_compute; reflexivity).
  assert (existsb (String.eqb "T_amb") assigned = true) by (apply existsb_exists; exists "T_amb"%string; split; [exact I | reflexivity]). congruence.
Qed.
Print Assumptions C177_name_refuted.

(** A second series with the time stamps of the first one is accepted exactly if these are whole seconds. *)
Theorem C177_second_series : forall stamps, same_stamps stamps stamps = true <-> Forall (fun t => (1000000000 | t)) stamps.
Proof.
  intro l. unfold same_stamps. destruct (list_eq_dec Z.eq_dec (kept l) l) as [E|E].
  - split; [intros _|reflexivity]. induction l as [|t l IH]; constructor; injection E as E1 E2.
    + exists (t / 1000000000). lia.
    + exact (IH E2).
  - split; [discriminate|]. intro F. exfalso. apply E. clear E. induction F as [|t l (q & ->) F IH]; [reflexivity|].
    cbn. rewrite Z.div_mul by lia. f_equal. exact IH.
Qed.
Print Assumptions C177_second_series.

(** ** Cases *)
Local Open Scope R_scope.
(** A pipe of two cells: temperatures (array 0), ambient temperature (array 1), a coefficient given as a number. *)
Definition pipe : world :=
  mkW (fun k => match k with 0%nat => [50; 60] | 1%nat => [20] | _ => [] end) 2
    (fun s => if String.eqb s "T" then Some (Arr 0) else if String.eqb s "_T_amb" then Some (Arr 1) else if String.eqb s "_UA" then Some (Num (1 / 2)) else None)
    [Arr 0; Arr 1; Num (1 / 2)].
Definition loss (o : list observed) : list R :=
  match o with [OArr t; OArr [a]; ONum u] => map (fun x => x - u * (x - a)) t | _ => [] end.
Definition keep (o : list observed) (r : list R) (h : store) : store := h.
Lemma keep_leaves : forall id e, leaves (fun h => h) id e. Proof. split; reflexivity. Qed.
Example pipe_ambient : exists v tr h',
  assign_part pipe "_T_amb" (Some 0%Z) = Accepted pipe v /\
  steps 0 (fun h => h) loss keep (taken pipe) v (fun k => INR k + 5) 3 [50; 60] (heap pipe) = Some (tr, h') /\
  List.length tr = 3%nat /\
  forall k o r, nth_error (rev tr) k = Some (o, r) -> exists l, nth_error o 1 = Some (OArr l) /\
    nth_error l 0 = (if Nat.eqb k 0 then Some 20 else Some (INR (k - 1) + 5)).
Proof.
  destruct (C177_acts 0 (fun h => h) loss keep (taken pipe) (fun k => INR k + 5) pipe "_T_amb" 1 0 pipe (mkV 1 0 1) [50; 60] (heap pipe) 3 1 0)
    as (tr & h' & A & B & D); try reflexivity; try discriminate; try (intros; apply keep_leaves).
  exists (mkV 1 0 1), tr, h'. repeat split; try assumption. 
Qed.
(** ... and the results show it: another series, other temperatures. *)
Example pipe_ambient_results : forall y, exists tr h',
  steps 0 (fun h => h) loss keep (taken pipe) (mkV 1 0 1) y 2 [50; 60] (heap pipe) = Some (tr, h') /\
  map snd tr = [[(35 + y 0%nat) / 2; (40 + y 0%nat) / 2]; [35; 40]].
Proof.
  intro y. do 2 eexists. split; [reflexivity|]. cbn [map snd]. unfold loss, one. cbn. repeat (f_equal; try (cbn; field)); cbn; try field.
Qed.
Example pipe_temperature : exists tr h1 h2,
  assign_part pipe "T" (Some 1%Z) = Accepted pipe (mkV 0 1 1) /\
  steps 0 (fun h => h) loss keep (taken pipe) (mkV 0 1 1) (fun _ => 90) 4 [50; 60] (heap pipe) = Some (tr, h1) /\
  steps 0 (fun h => h) loss keep (taken pipe) (mkV 0 1 1) (fun _ => 10) 4 [50; 60] (heap pipe) = Some (tr, h2).
Proof.
  destruct (C177_temperature_refuted 0 (fun h => h) loss keep (taken pipe) (fun _ => 90) (fun _ => 10) (mkV 0 1 1) [50; 60] (heap pipe) 4) as (tr & h1 & h2 & A & B);
    [reflexivity | discriminate | intros h h' A; exact A | intros o r h h' A; exact A |].
  exists tr, h1, h2. repeat split; assumption.
Qed.
Example pipe_number : exists w' v tr h1 h2, assign_part pipe "_UA" (Some 0%Z) = Accepted w' v /\
  steps 0 (fun h => h) loss keep (taken w') v (fun _ => 0) 4 [50; 60] (heap w') = Some (tr, h1) /\
  steps 0 (fun h => h) loss keep (taken w') v (fun _ => 1) 4 [50; 60] (heap w') = Some (tr, h2).
Proof.
  destruct (C177_number_refuted 0 (fun h => h) loss keep pipe "_UA" (1 / 2) (fun _ => 0) (fun _ => 1) [50; 60] 4) as (w' & v & A & _ & _ & tr & h1 & h2 & B & D);
    [reflexivity | intros [|[|[|k]]] id E; try discriminate; [injection E as <-; cbn; lia | injection E as <-; cbn; lia | destruct k; discriminate]
    | cbn; lia | intros h h' E; exact E | intros o r h h' E; exact E |].
  exists w', v, tr, h1, h2. repeat split; assumption.
Qed.
Example pipe_only : write (heap pipe) (mkV 0 0 1) 7 = Some (put (heap pipe) 0 [7; 60]) /\ assign_part pipe "T" (Some (-2)%Z) = Accepted pipe (mkV 0 0 1).
Proof. split; reflexivity. Qed.
Example pipe_last : exists v, assign_part pipe "T" (Some (-1)%Z) = Accepted pipe v /\ steps 0 (fun h => h) loss keep (taken pipe) v (fun _ => 1) 1 [50; 60] (heap pipe) = None.
Proof. apply (C177_last_refuted pipe "T" 0). reflexivity. Qed.
Example stamps_whole : same_stamps [0; 60000000000]%Z [0; 60000000000]%Z = true /\ same_stamps [500000000; 60500000000]%Z [500000000; 60500000000]%Z = false.
Proof. split; reflexivity. Qed.
(** The attribute with the ambient temperature is assigned under its other name. *)
Definition hot : world := mkW (fun _ => [20]) 1 (fun s => if String.eqb s "_T_amb" then Some (Arr 0) else None) [].
Example pipe_name : assign_part hot "T_amb" (Some 0%Z) = Rejected /\ assign_part hot "_T_amb" (Some 0%Z) = Accepted hot (mkV 0 0 1).
Proof.
  split; [|reflexivity]. apply C177_name_refuted. intros s E. unfold hot in E. cbn in E. destruct (String.eqb s "_T_amb") eqn:Q; [|congruence].
  apply String.eqb_eq in Q. subst s. 
  assert (X : existsb (String.eqb "_T_amb") assigned = true) by (vm_compute; reflexivity).
  apply existsb_exists in X as (s & I & X). apply String.eqb_eq in X. subst s. exact I.
Qed.
