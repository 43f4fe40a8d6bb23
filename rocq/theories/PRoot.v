(** C139, C140, C141: what the root solvers find. *)
From Coq Require Import Reals List Bool Arith Lia Lra Psatz.
From Verif Require Import MRoot.
Import ListNotations.
Open Scope R_scope.

Lemma rnz_true a b : a <> b -> rnz a b = true.
Proof. unfold rnz; destruct (Req_EM_T a b); tauto. Qed.
Lemma rnz_false a b : a = b -> rnz a b = false.
Proof. unfold rnz; destruct (Req_EM_T a b); tauto. Qed.
Lemma rlt_true a b : a < b -> rlt a b = true.
Proof. unfold rlt; destruct (Rlt_dec a b); tauto. Qed.
Lemma rlt_false a b : b <= a -> rlt a b = false.
Proof. unfold rlt; destruct (Rlt_dec a b); [lra|reflexivity]. Qed.
Lemma some_cell_false n c i : some_cell n c = false -> (i < n)%nat -> c i = false.
Proof.
  unfold some_cell; intros H Hi.
  destruct (c i) eqn:E; [|reflexivity].
  assert (X : existsb c (seq 0 n) = true)
    by (apply existsb_exists; exists i; split; [apply in_seq; lia|exact E]).
  rewrite X in H; discriminate.
Qed.
Lemma some_cell_true n c i : (i < n)%nat -> c i = true -> some_cell n c = true.
Proof. intros; apply existsb_exists; exists i; split; [apply in_seq; lia|assumption]. Qed.
Lemma beside_neq dx x i : 0 < dx -> beside dx x i <> x i.
Proof. unfold beside; intros H; destruct (Rle_dec 0 (x i)); nra. Qed.

(** From the second iteration on the solver keeps the root. *)
Lemma keep_root n f go k : forall (r : vec) p p1 q0 q1 act,
  (forall u, (forall i, (i < n)%nat -> u i = r i) -> forall i, (i < n)%nat -> f u i = 0) ->
  (forall i, (i < n)%nat -> p1 i = r i) -> (forall i, (i < n)%nat -> q1 i = 0) ->
  (forall i, (i < n)%nat -> q0 i = 0 -> p i = r i) ->
  (1 <= k)%nat \/ (forall i, (i < n)%nat -> p i = r i) ->
  forall i, (i < n)%nat -> secant_loop n f go k p p1 q0 q1 act i = r i.
Proof.
  induction k as [|k IH]; intros r p p1 q0 q1 act Hf H1 Hq Hp Hk i Hi.
  - destruct Hk as [Hk|Hk]; [lia|]. exact (Hk i Hi).
  - cbn [secant_loop].
    destruct (some_cell n (fun i0 => rnz (q1 i0) (q0 i0))) eqn:E.
    + assert (PN : forall j, (j < n)%nat ->
        (if rnz (q1 j) (q0 j) then p1 j - q1 j * (p1 j - p j) / (q1 j - q0 j)
         else if act j then (p1 j + p j) / 2 else p j) = r j).
      { intros j Hj; rewrite (Hq j Hj), (H1 j Hj). unfold rnz.
        destruct (Req_EM_T 0 (q0 j)) as [e|e].
        - rewrite (Hp j Hj (eq_sym e)). destruct (act j); lra.
        - unfold Rdiv; ring. }
      match goal with |- context [if go ?a ?b then _ else _] => destruct (go a b) end.
      * apply IH; auto.
      * exact (PN i Hi).
    + rewrite (H1 i Hi), (Hp i Hi); [lra|].
      pose proof (some_cell_false _ _ i E Hi) as F; cbn beta in F.
      unfold rnz in F; destruct (Req_EM_T (q1 i) (q0 i)) as [e|]; [|discriminate].
      rewrite <- e; exact (Hq i Hi).
Qed.

(** C139, first part: every solver without derivative, whatever its convergence test is, finds the exact
    root of linear equations, one for each cell, from every start with two iterations or more. *)
Theorem C139_linear : forall n go dx (a b x0 : vec) k i,
  (forall j, (j < n)%nat -> a j <> 0) -> 0 < dx -> (2 <= k)%nat -> (i < n)%nat ->
  a i * secant_with go n dx (fun p j => a j * p j + b j) x0 k i + b i = 0.
Proof.
  intros n go dx a b x0 k i Ha Hdx Hk Hi.
  enough (X : secant_with go n dx (fun p j => a j * p j + b j) x0 k i = - b i / a i)
    by (rewrite X; field; exact (Ha i Hi)).
  unfold secant_with. destruct k as [|k]; [lia|]. cbn [secant_loop].
  set (p1 := beside dx x0).
  assert (D : forall j, p1 j <> x0 j) by (intros j; apply beside_neq; exact Hdx).
  assert (N : forall j, (j < n)%nat -> rnz (a j * p1 j + b j) (a j * x0 j + b j) = true).
  { intros j Hj; apply rnz_true; intros e. apply (D j).
    apply (Rmult_eq_reg_l (a j)); [lra|exact (Ha j Hj)]. }
  rewrite (some_cell_true n _ i Hi (N i Hi)).
  set (pn := fun j => if rnz (a j * p1 j + b j) (a j * x0 j + b j) then _ else _).
  assert (PN : forall j, (j < n)%nat -> pn j = - b j / a j).
  { intros j Hj; unfold pn; rewrite (N j Hj). pose proof (Ha j Hj); pose proof (D j).
    assert (a j * p1 j + b j - (a j * x0 j + b j) <> 0).
    { replace (a j * p1 j + b j - (a j * x0 j + b j)) with (a j * (p1 j - x0 j)) by ring.
      apply Rmult_integral_contrapositive_currified; lra. }
    field; repeat split; assumption. }
  match goal with |- context [if go ?u ?v then _ else _] => destruct (go u v) end; [|exact (PN i Hi)].
  apply keep_root with (r := fun j => - b j / a j).
  - intros u Hu j Hj; rewrite (Hu j Hj); field; exact (Ha j Hj).
  - exact PN.
  - intros j Hj; change (a j * pn j + b j = 0); rewrite (PN j Hj); field; exact (Ha j Hj).
  - intros j Hj E. pose proof (Ha j Hj). apply (Rmult_eq_reg_l (a j)); [|assumption].
    replace (a j * (- b j / a j)) with (- b j) by (field; assumption). lra.
  - left; lia.
  - exact Hi.
Qed.
Print Assumptions C139_linear.
Example C139_linear_example :
  3 * root_array_secant 2 (/ 1000) (fun p j => 3 * p j + INR j) (fun _ => 7) (/ 100) 50 1%nat + INR 1 = 0.
Proof.
  exact (C139_linear 2 (go_any 2 (/ 100)) (/ 1000) (fun _ => 3) INR (fun _ => 7) 50 1%nat
    (fun _ _ => ltac:(lra)) ltac:(lra) ltac:(lia) ltac:(lia)).
Qed.

(** C139, second part: for whatever function of the cells, a start which is the root is given back. *)
Theorem C139_start : forall n go dx f (x0 : vec) k i,
  (forall u v, (forall j, (j < n)%nat -> u j = v j) -> forall j, (j < n)%nat -> f u j = f v j) ->
  (forall j, (j < n)%nat -> f x0 j = 0) -> (forall j, (j < n)%nat -> f (beside dx x0) j <> 0) ->
  k <> 1%nat -> (i < n)%nat -> secant_with go n dx f x0 k i = x0 i.
Proof.
  intros n go dx f x0 k i He H0 H1 Hk Hi. unfold secant_with.
  destruct k as [|k]; [reflexivity|]. cbn [secant_loop].
  set (p1 := beside dx x0).
  assert (N : forall j, (j < n)%nat -> rnz (f p1 j) (f x0 j) = true).
  { intros j Hj; apply rnz_true; rewrite (H0 j Hj); exact (H1 j Hj). }
  rewrite (some_cell_true n _ i Hi (N i Hi)).
  set (pn := fun j => if rnz (f p1 j) (f x0 j) then _ else _).
  assert (PN : forall j, (j < n)%nat -> pn j = x0 j).
  { intros j Hj; unfold pn; rewrite (N j Hj), (H0 j Hj). field.
    pose proof (H1 j Hj) as X; change (f p1 j <> 0) in X; lra. }
  match goal with |- context [if go ?u ?v then _ else _] => destruct (go u v) end; [|exact (PN i Hi)].
  assert (Z : forall u, (forall j, (j < n)%nat -> u j = x0 j) -> forall j, (j < n)%nat -> f u j = 0).
  { intros u Hu j Hj; rewrite (He u x0 Hu j Hj); exact (H0 j Hj). }
  apply keep_root with (r := x0); auto.
  - intros j Hj E; exfalso; exact (H1 j Hj E).
  - left; lia.
Qed.
Print Assumptions C139_start.
Example C139_start_example :
  root_array_secant 1 (/ 10) (fun p j => p j * p j - 4) (fun _ => 2) (/ 1000) 9 0%nat = 2.
Proof.
  apply (C139_start 1 (go_any 1 (/ 1000)) (/ 10) (fun p j => p j * p j - 4) (fun _ => 2) 9 0%nat).
  - intros u v H j Hj; rewrite (H j Hj); reflexivity.
  - intros; lra.
  - intros; unfold beside; destruct (Rle_dec 0 2); lra.
  - discriminate.
  - lia.
Qed.

(** C139, third part: with the derivative one iteration is enough. *)
Theorem C139_newton : forall n (a b x0 : vec) tol k i,
  (forall j, (j < n)%nat -> a j <> 0) -> 0 < tol -> (1 <= k)%nat -> (i < n)%nat ->
  a i * newton_loop n (fun p j => a j * p j + b j) (fun _ => a) tol k x0 i + b i = 0.
Proof.
  intros n a b x0 tol k i Ha Ht Hk Hi.
  assert (K : forall m p, (forall j, (j < n)%nat -> a j * p j + b j = 0) ->
    newton_loop n (fun p j => a j * p j + b j) (fun _ => a) tol m p = p).
  { intros m p H; destruct m; [reflexivity|]; cbn [newton_loop].
    destruct (some_cell n (fun i0 => rnz (a i0 * p i0 + b i0) 0)) eqn:E; [|reflexivity].
    apply existsb_exists in E; destruct E as (j & Hj & E). apply in_seq in Hj.
    unfold rnz in E; destruct (Req_EM_T (a j * p j + b j) 0) as [e|e]; [discriminate|].
    elim e; apply H; lia. }
  destruct k as [|k]; [lia|]. cbn [newton_loop].
  destruct (some_cell n (fun i0 => rnz (a i0 * x0 i0 + b i0) 0)) eqn:E.
  - rewrite (some_cell_true n _ i Hi (rnz_true _ _ (Ha i Hi))).
    set (pn := fun j => if rnz (a j) 0 then _ else _).
    assert (PN : forall j, (j < n)%nat -> a j * pn j + b j = 0).
    { intros j Hj; unfold pn; rewrite (rnz_true _ _ (Ha j Hj)); field; exact (Ha j Hj). }
    match goal with |- context [if go_any ?u ?v ?w ?x then _ else _] => destruct (go_any u v w x) end.
    + rewrite K by exact PN. exact (PN i Hi).
    + exact (PN i Hi).
  - pose proof (some_cell_false _ _ i E Hi) as F; cbn beta in F.
    unfold rnz in F; destruct (Req_EM_T (a i * x0 i + b i) 0) as [e|]; [exact e|discriminate].
Qed.
Print Assumptions C139_newton.
Example C139_newton_example :
  2 * newton_loop 3 (fun p j => 2 * p j + INR j) (fun _ _ => 2) (/ 10) 1 (fun _ => 5) 2%nat + INR 2 = 0.
Proof.
  exact (C139_newton 3 (fun _ => 2) INR (fun _ => 5) (/ 10) 1 2%nat (fun _ _ => ltac:(lra)) ltac:(lra)
    ltac:(lia) ltac:(lia)).
Qed.

(** C140: "the solver returns a root, or says that it found none".  A linear system of two equations with
    exactly one root, x - y = 1 and x + y = 4: from some start the solver stops after one iteration, at a
    point where the first equation is missed by 1 or more, whatever the tolerance and the iteration limit
    are; what it returns is only the point. *)
Definition coupled (p : vec) : vec := fun i =>
  match i with O => p 0%nat - p 1%nat - 1 | _ => p 0%nat + p 1%nat - 4 end.
Theorem C140_coupled_refuted :
  (forall p, (coupled p 0%nat = 0 /\ coupled p 1%nat = 0) <-> (p 0%nat = 5 / 2 /\ p 1%nat = 3 / 2)) /\
  forall dx, 0 < dx < 1 -> exists x0, forall tol k, 0 < tol -> (1 <= k)%nat ->
    1 <= Rabs (coupled (root_array_secant 2 dx coupled x0 tol k) 0%nat).
Proof.
  split.
  - intros p; unfold coupled; split; intros [? ?]; split; lra.
  - intros dx Hdx. set (c := (2 - dx) / (1 + dx)).
    assert (Hc : 0 < c) by (apply Rdiv_lt_0_compat; lra).
    assert (C2 : c * (1 + dx) + dx = 2) by (unfold c; field; lra).
    assert (Hc2 : c < 2) by nra.
    exists (fun _ => c). intros tol k Ht Hk. destruct k as [|k]; [lia|].
    assert (B : forall j, beside dx (fun _ => c) j = 2).
    { intros j; unfold beside; destruct (Rle_dec 0 c); [exact C2|lra]. }
    unfold root_array_secant, secant_with. cbn [secant_loop].
    unfold coupled at 2 3 4 5.
    rewrite (some_cell_true 2 _ 1%nat); [|lia|apply rnz_true; unfold coupled; rewrite !B; lra].
    unfold go_any, some_cell. cbn [seq existsb].
    unfold coupled at 1 2 3 4 5 6 7 8 9 10. rewrite !B.
    rewrite (rnz_false (2 - 2 - 1) (c - c - 1)) by lra.
    rewrite (rnz_true (2 + 2 - 4) (c + c - 4)) by lra.
    cbn [andb orb].
    replace ((2 + 2 - 4) * (2 - c) / (2 + 2 - 4 - (c + c - 4))) with 0 by (field; lra).
    rewrite Rabs_R0. unfold rle; destruct (Rle_dec tol 0); [lra|]. cbn [orb].
    unfold coupled; cbn beta iota. rewrite !B.
    rewrite (rnz_false (2 - 2 - 1) (c - c - 1)) by lra.
    rewrite (rnz_true (2 + 2 - 4) (c + c - 4)) by lra.
    replace ((2 + 2 - 4) * (2 - c) / (2 + 2 - 4 - (c + c - 4))) with 0 by (field; lra).
    rewrite Rabs_left; lra.
Qed.
Print Assumptions C140_coupled_refuted.

(** An equation without root: the solver returns the point half way between its two starting values. *)
Theorem C140_none_refuted : forall n dx c x0 tol k i, c <> 0 -> (1 <= k)%nat ->
  root_array_secant n dx (fun _ _ => c) x0 tol k i = (beside dx x0 i + x0 i) / 2.
Proof.
  intros n dx c x0 tol k i Hc Hk; destruct k as [|k]; [lia|].
  unfold root_array_secant, secant_with; cbn [secant_loop].
  assert (E : some_cell n (fun _ => rnz c c) = false).
  { rewrite (rnz_false c c eq_refl). unfold some_cell. induction (seq 0 n); [reflexivity|exact IHl]. }
  rewrite E; reflexivity.
Qed.
Print Assumptions C140_none_refuted.
Example C140_none_example :
  root_array_secant 1 (/ 10) (fun _ _ => 5) (fun _ => 0) (/ 1000) 100 0%nat = / 20.
Proof.
  rewrite C140_none_refuted; [|lra|lia]. unfold beside; destruct (Rle_dec 0 0); lra.
Qed.

(** At the iteration limit the solver returns the last value but one: with one iteration allowed, the root of
    a linear equation, though already found, is thrown away for the second starting value. *)
Theorem C140_limit_refuted : forall (a b : R) dx x0 tol,
  a <> 0 -> 0 < dx -> 0 < tol -> tol <= Rabs (beside dx x0 0%nat - - b / a) ->
  root_array_secant 1 dx (fun p _ => a * p 0%nat + b) x0 tol 1 0%nat = beside dx x0 0%nat /\
  a * root_array_secant 1 dx (fun p _ => a * p 0%nat + b) x0 tol 1 0%nat + b <> 0.
Proof.
  intros a b dx x0 tol Ha Hdx Ht Hs.
  enough (X : root_array_secant 1 dx (fun p _ => a * p 0%nat + b) x0 tol 1 0%nat = beside dx x0 0%nat).
  { split; [exact X|]. rewrite X; intros E.
    assert (Y : beside dx x0 0%nat - - b / a = 0).
    { apply (Rmult_eq_reg_l a); [|exact Ha]. transitivity (a * beside dx x0 0%nat + b); [field; exact Ha|lra]. }
    rewrite Y, Rabs_R0 in Hs; lra. }
  pose proof (beside_neq dx x0 0%nat Hdx) as D.
  unfold root_array_secant, secant_with; cbn [secant_loop].
  set (p1 := beside dx x0) in *.
  assert (N : rnz (a * p1 0%nat + b) (a * x0 0%nat + b) = true).
  { apply rnz_true; intros e; apply D. apply (Rmult_eq_reg_l a); [lra|exact Ha]. }
  unfold go_any, some_cell; cbn [seq existsb]. rewrite N. cbn [orb andb].
  replace ((a * p1 0%nat + b) * (p1 0%nat - x0 0%nat) / (a * p1 0%nat + b - (a * x0 0%nat + b)))
    with (p1 0%nat - - b / a).
  - unfold rle; destruct (Rle_dec tol (Rabs (p1 0%nat - - b / a))); [reflexivity|lra].
  - assert (a * p1 0%nat + b - (a * x0 0%nat + b) <> 0).
    { replace (a * p1 0%nat + b - (a * x0 0%nat + b)) with (a * (p1 0%nat - x0 0%nat)) by ring.
      apply Rmult_integral_contrapositive_currified; lra. }
    field; repeat split; assumption.
Qed.
Print Assumptions C140_limit_refuted.
Example C140_limit_example :
  root_array_secant 1 (/ 10) (fun p _ => 1 * p 0%nat + -5) (fun _ => 10) (/ 1000) 1 0%nat = 111 / 10.
Proof.
  assert (B : beside (/ 10) (fun _ => 10) 0%nat = 111 / 10).
  { unfold beside; destruct (Rle_dec 0 10); lra. }
  rewrite <- B. refine (proj1 (C140_limit_refuted 1 (-5) (/ 10) (fun _ => 10) (/ 1000) _ _ _ _)); try lra.
  rewrite B. rewrite Rabs_right; lra.
Qed.

(** C141: [root_secant] on a linear equation. *)
Definition line (a b : R) : vec -> vec := fun p i => a * p i + b.
Lemma accept1 tol q : accept 1 tol q = rlt ((q 0%nat - tol) ^ 2) tol.
Proof. unfold accept, cells_mean; cbn [map seq fold_right length INR]. f_equal; lra. Qed.
Lemma accept_bound tol y : 0 < tol -> (y - tol) ^ 2 < tol -> Rabs y < tol + sqrt tol.
Proof.
  intros Ht H. pose proof (sqrt_sqrt tol (Rlt_le _ _ Ht)) as S. pose proof (sqrt_lt_R0 tol Ht) as P.
  set (s := sqrt tol) in *. clearbody s.
  apply Rabs_def1; apply Rnot_le_lt; intros L.
  - assert (0 <= (y - tol - s) * (y - tol + s)) by (apply Rmult_le_pos; lra). nra.
  - assert (0 <= (- y + tol - s) * (- y + tol + s)) by (apply Rmult_le_pos; lra). nra.
Qed.
Definition step2 (p0 p1 q0 q1 : R) : R := (p0 * q1 - p1 * q0) / (q1 - q0).
(** The loop for one cell in scalars. *)
Fixpoint sloop (f : R -> R) (tol : R) (k : nat) (p0 p1 q0 q1 : R) : option R :=
  match k with
  | O => Some p1
  | S k' =>
      if rlt ((q1 - tol) ^ 2) tol then Some p1 else
      if rnz q1 q0 then sloop f tol k' p1 (step2 p0 p1 q0 q1) q1 (f (step2 p0 p1 q0 q1)) else
      if rlt (/ 10 ^ 8) (Rabs q1) then None else sloop f tol k' p0 p1 q1 (f p1)
  end.
Lemma sloop_ok a b tol k : forall p0 p1 q0 q1,
  match sec_loop 1 (line a b) tol k p0 p1 q0 q1 with
  | Some y => sloop (fun x => a * x + b) tol k (p0 0%nat) (p1 0%nat) (q0 0%nat) (q1 0%nat) = Some (y 0%nat)
  | None => sloop (fun x => a * x + b) tol k (p0 0%nat) (p1 0%nat) (q0 0%nat) (q1 0%nat) = None
  end.
Proof.
  induction k as [|k IH]; intros p0 p1 q0 q1; [reflexivity|].
  cbn [sec_loop sloop]. rewrite accept1.
  destruct (rlt ((q1 0%nat - tol) ^ 2) tol); [reflexivity|].
  unfold some_cell at 1; cbn [seq existsb].
  match goal with |- context [sec_loop 1 (line a b) tol k ?u ?v ?w ?x] =>
    set (P0 := u); set (P1 := v); pose proof (IH P0 P1 q1 (line a b P1)) as I end.
  change (line a b P1 0%nat) with (a * P1 0%nat + b) in I.
  destruct (Req_EM_T (q1 0%nat) (q0 0%nat)) as [e|e].
  - assert (Z : rnz (q0 0%nat) (q1 0%nat) = false) by (apply rnz_false; auto).
    assert (Z1 : rnz (q1 0%nat) (q0 0%nat) = false) by (apply rnz_false; auto).
    assert (E0 : rlt (/ 10 ^ 8) (Rabs (q1 0%nat)) = false -> P0 0%nat = p0 0%nat /\ P1 0%nat = p1 0%nat).
    { intros L; unfold P0, P1; rewrite Z, <- e, L; split; reflexivity. }
    rewrite Z, Z1, <- e. cbn [negb]. rewrite !orb_false_r, andb_true_r.
    destruct (rlt (/ 10 ^ 8) (Rabs (q1 0%nat))); cbn [orb]; [reflexivity|].
    destruct (E0 eq_refl) as [A B]. rewrite A, B in I. exact I.
  - assert (Z : rnz (q0 0%nat) (q1 0%nat) = true) by (apply rnz_true; auto).
    assert (Z1 : rnz (q1 0%nat) (q0 0%nat) = true) by (apply rnz_true; auto).
    assert (A : P0 0%nat = p1 0%nat) by (unfold P0; rewrite Z, orb_true_r; reflexivity).
    assert (B : P1 0%nat = step2 (p0 0%nat) (p1 0%nat) (q0 0%nat) (q1 0%nat))
      by (unfold P1; rewrite Z, orb_true_r; reflexivity).
    rewrite Z1. cbn [negb]. rewrite andb_false_r; cbn [orb].
    rewrite A, B in I. exact I.
Qed.

(** A linear equation is solved up to [tol + sqrt tol] in three iterations, if the start is not 0 and the
    root is not at the upper end of the first bracket. *)
Theorem C141_linear_partial : forall a b x0 tol k,
  a <> 0 -> (x0 : vec) 0%nat <> 0 -> a * (x0 0%nat * (11 / 10)) + b <> 0 -> 0 < tol < 1 -> (3 <= k)%nat ->
  tol <= (a * (x0 0%nat * (9 / 10)) + b - tol) ^ 2 ->
  exists y : vec, root_secant 1 (line a b) x0 tol k = Some y /\
    (a * y 0%nat + b = 0 \/ (a * y 0%nat + b - tol) ^ 2 < tol) /\ Rabs (a * y 0%nat + b) < tol + sqrt tol.
Proof.
  intros a b x0 tol k Ha Hx Hu Ht Hk Hv. unfold root_secant.
  match goal with |- exists y, sec_loop 1 _ tol k ?p0 ?p1 ?q0 ?q1 = _ /\ _ =>
    pose proof (sloop_ok a b tol k p0 p1 q0 q1) as S;
    assert (G : exists z, sloop (fun x => a * x + b) tol k (p0 0%nat) (p1 0%nat) (q0 0%nat) (q1 0%nat) = Some z /\
      (a * z + b = 0 \/ (a * z + b - tol) ^ 2 < tol));
    [clear S|destruct (sec_loop 1 (line a b) tol k p0 p1 q0 q1) as [y|]]
  end.
  - cbn beta. unfold line. replace (1 + / 10) with (11 / 10) by lra. replace (1 - / 10) with (9 / 10) by lra.
    set (u := x0 0%nat * (11 / 10)) in *. set (v := x0 0%nat * (9 / 10)) in *.
    assert (Huv : u <> v) by (unfold u, v; lra). clearbody u v.
    set (f := fun x => a * x + b).
    assert (Root : forall m p0 q0 p1, a * p1 + b = 0 -> exists z, sloop f tol m p0 p1 q0 (a * p1 + b) = Some z /\
      (a * z + b = 0 \/ (a * z + b - tol) ^ 2 < tol)).
    { intros m p0 q0 p1 E. exists p1; split; [|left; exact E]. destruct m; [reflexivity|]. cbn [sloop].
      rewrite E, rlt_true by nra. reflexivity. }
    assert (Two : forall m p0 p1, p0 <> p1 -> (1 <= m)%nat ->
      exists z, sloop f tol m p0 p1 (a * p0 + b) (a * p1 + b) = Some z /\
      (a * z + b = 0 \/ (a * z + b - tol) ^ 2 < tol)).
    { intros m p0 p1 D Hm. destruct m as [|m]; [lia|]. cbn [sloop].
      destruct (rlt ((a * p1 + b - tol) ^ 2) tol) eqn:L.
      - exists p1; split; [reflexivity|]. right. unfold rlt in L.
        destruct (Rlt_dec ((a * p1 + b - tol) ^ 2) tol); [assumption|discriminate].
      - rewrite rnz_true.
        + apply Root. unfold step2.
          assert (a * p1 + b - (a * p0 + b) <> 0).
          { replace (a * p1 + b - (a * p0 + b)) with (a * (p1 - p0)) by ring.
            apply Rmult_integral_contrapositive_currified; lra. }
          field; assumption.
        + intros e; apply D. apply (Rmult_eq_reg_l a); [lra|exact Ha]. }
    unfold rle; destruct (Rle_dec 0 ((a * u + b) * (a * v + b))) as [Sg|Sg]; [|apply Two; [exact Huv|lia]].
    destruct k as [|[|k]]; [lia|lia|]. cbn [sloop].
    rewrite rlt_false by exact Hv. rewrite rnz_true.
    + set (w := step2 v u (a * u + b) (a * v + b)).
      assert (W : a * w + b = (a * u + b) + (a * v + b)).
      { unfold w, step2. assert (a * v + b - (a * u + b) <> 0).
        { replace (a * v + b - (a * u + b)) with (a * (v - u)) by ring.
          apply Rmult_integral_contrapositive_currified; lra. }
        field; assumption. }
      clearbody w. change (f w) with (a * w + b).
      destruct (rlt ((a * w + b - tol) ^ 2) tol) eqn:L.
      * exists w; split; [reflexivity|]. right. unfold rlt in L.
        destruct (Rlt_dec ((a * w + b - tol) ^ 2) tol); [assumption|discriminate].
      * rewrite rnz_true by (intros e; apply Hu; lra).
        set (z := step2 u w (a * v + b) (a * w + b)).
        change (f z) with (a * z + b). apply Two; [|lia].
        intros e.
        assert (Z : a * z + b = (a * w + b) * ((a * u + b) - (a * v + b)) / (a * u + b)).
        { unfold z, step2. rewrite W. replace (a * u + b + (a * v + b) - (a * v + b)) with (a * u + b) by ring.
          replace (a * ((u * (a * u + b + (a * v + b)) - w * (a * v + b)) / (a * u + b)) + b)
            with (((a * u + b) * (a * u + b + (a * v + b)) - (a * w + b) * (a * v + b)) / (a * u + b))
            by (field; exact Hu).
          rewrite W. field; exact Hu. }
        rewrite <- e, W in Z.
        assert (Hv0 : a * v + b <> 0) by (intros V; rewrite V in Hv; nra).
        set (U := a * u + b) in *. set (V := a * v + b) in *.
        assert (Z2 : (U + V) * V = 0).
        { apply (f_equal (fun r => r * U)) in Z. replace ((U + V) * (U - V) / U * U) with ((U + V) * (U - V)) in Z
            by (field; exact Hu). lra. }
        apply Rmult_integral in Z2. destruct Z2 as [Z2|Z2]; [|exact (Hv0 Z2)].
        replace V with (- U) in Sg by lra. assert (0 < U * U) by nra. nra.
    + intros e; apply Huv. apply (Rmult_eq_reg_l a); [lra|exact Ha].
  - destruct G as (z & E & G). rewrite E in S. injection S as ->. exists y. split; [reflexivity|].
    split; [exact G|]. apply accept_bound; [lra|]. destruct G as [G|G]; [|exact G]. rewrite G. nra.
  - destruct G as (z & E & G). rewrite E in S; discriminate.
Qed.
Print Assumptions C141_linear_partial.
Example C141_linear_example : exists y : vec,
  root_secant 1 (line 2 (-6)) (fun _ => 10) (/ 1000) 100 = Some y /\
  Rabs (2 * y 0%nat + -6) < / 1000 + sqrt (/ 1000).
Proof.
  destruct (C141_linear_partial 2 (-6) (fun _ => 10) (/ 1000) 100) as (y & E & _ & B);
    try lra; try lia. exists y; split; assumption.
Qed.

Lemma sloop_some a b tol k p0 p1 q0 q1 z :
  sloop (fun x => a * x + b) tol k (p0 0%nat) (p1 0%nat) (q0 0%nat) (q1 0%nat) = Some z ->
  exists y, sec_loop 1 (line a b) tol k p0 p1 q0 q1 = Some y /\ y 0%nat = z.
Proof.
  intros E. pose proof (sloop_ok a b tol k p0 p1 q0 q1) as S.
  destruct (sec_loop 1 (line a b) tol k p0 p1 q0 q1) as [y|]; rewrite E in S; [|discriminate].
  injection S as ->. exists y; split; reflexivity.
Qed.
Lemma sloop_none a b tol k p0 p1 q0 q1 :
  sloop (fun x => a * x + b) tol k (p0 0%nat) (p1 0%nat) (q0 0%nat) (q1 0%nat) = None ->
  sec_loop 1 (line a b) tol k p0 p1 q0 q1 = None.
Proof.
  intros E. pose proof (sloop_ok a b tol k p0 p1 q0 q1) as S.
  destruct (sec_loop 1 (line a b) tol k p0 p1 q0 q1); [rewrite E in S; discriminate|reflexivity].
Qed.

(** If the root is at the lower end of the first bracket, the solver returns the upper end. *)
Theorem C141_lower_refuted : forall a (x0 : vec) tol k, 0 < tol < 1 -> (1 <= k)%nat ->
  exists y : vec, root_secant 1 (line a (- a * (x0 0%nat * (9 / 10)))) x0 tol k = Some y /\
    y 0%nat = x0 0%nat * (11 / 10) /\ line a (- a * (x0 0%nat * (9 / 10))) y 0%nat = a * x0 0%nat / 5.
Proof.
  intros a x0 tol k Ht Hk. unfold root_secant.
  match goal with |- exists y, sec_loop 1 (line a ?b) tol k ?p0 ?p1 ?q0 ?q1 = _ /\ _ =>
    destruct (sloop_some a b tol k p0 p1 q0 q1 (x0 0%nat * (11 / 10))) as (y & E & Y) end.
  - destruct k as [|k]; [lia|]. cbn [sloop]. unfold line at 1.
    rewrite rlt_true; [|replace (a * (x0 0%nat * (1 - / 10)) + - a * (x0 0%nat * (9 / 10)) - tol) with (- tol) by lra; nra].
    unfold line. f_equal.
    replace (a * (x0 0%nat * (1 - / 10)) + - a * (x0 0%nat * (9 / 10))) with 0 by lra.
    rewrite Rmult_0_r. unfold rle; destruct (Rle_dec 0 0); lra.
  - exists y; split; [exact E|]. split; [exact Y|]. unfold line; rewrite Y; lra.
Qed.
Print Assumptions C141_lower_refuted.
Example C141_lower_example : exists y : vec,
  root_secant 1 (line 3 (- (3) * (10 * (9 / 10)))) (fun _ => 10) (/ 1000) 100 = Some y /\ y 0%nat = 10 * (11 / 10).
Proof.
  destruct (C141_lower_refuted 3 (fun _ => 10) (/ 1000) 100) as (y & E & Y & _); [lra|lia|].
  exists y; split; assumption.
Qed.

(** If the root is at the upper end, or the start is 0, the solver divides by 0. *)
Theorem C141_upper_refuted : forall a (x0 : vec) tol k, 0 < tol -> (2 <= k)%nat ->
  tol <= (- a * x0 0%nat / 5 - tol) ^ 2 -> / 10 ^ 8 < Rabs (- a * x0 0%nat / 5) ->
  root_secant 1 (line a (- a * (x0 0%nat * (11 / 10)))) x0 tol k = None.
Proof.
  intros a x0 tol k Ht Hk Hacc Heps. unfold root_secant. apply sloop_none.
  destruct k as [|[|k]]; [lia|lia|]. unfold line. set (x := x0 0%nat) in *.
  replace (a * (x * (1 + / 10)) + - a * (x * (11 / 10))) with 0 by lra.
  replace (a * (x * (1 - / 10)) + - a * (x * (11 / 10))) with (- a * x / 5) by lra.
  rewrite Rmult_0_l. unfold rle; destruct (Rle_dec 0 0); [|lra].
  set (q := - a * x / 5) in *.
  assert (Hq : q <> 0).
  { intros e; rewrite e, Rabs_R0 in Heps. assert (0 < / 10 ^ 8) by (apply Rinv_0_lt_compat; nra). lra. }
  cbn [sloop]. rewrite (rlt_false ((q - tol) ^ 2) tol Hacc), (rnz_true q 0 Hq).
  replace (step2 (x * (1 - / 10)) (x * (1 + / 10)) 0 q) with (x * (1 - / 10)) by (unfold step2; field; lra).
  replace (a * (x * (1 - / 10)) + - a * (x * (11 / 10))) with q by (unfold q; lra).
  rewrite (rlt_false ((q - tol) ^ 2) tol Hacc), (rnz_false q q eq_refl), (rlt_true _ _ Heps). reflexivity.
Qed.
Print Assumptions C141_upper_refuted.
Example C141_upper_example :
  root_secant 1 (line 1 (- (1) * (10 * (11 / 10)))) (fun _ => 10) (/ 1000) 100 = None.
Proof.
  refine (C141_upper_refuted 1 (fun _ => 10) (/ 1000) 100 _ _ _ _); try lra; try lia.
  rewrite Rabs_left by lra. lra.
Qed.
Theorem C141_zero_refuted : forall a b tol k, (1 <= k)%nat ->
  tol <= (b - tol) ^ 2 -> / 10 ^ 8 < Rabs b -> root_secant 1 (line a b) (fun _ => 0) tol k = None.
Proof.
  intros a b tol k Hk Hacc Heps. unfold root_secant. apply sloop_none.
  destruct k as [|k]; [lia|]. unfold line. rewrite !Rmult_0_l, Rmult_0_r, Rplus_0_l.
  cbn [sloop]. rewrite (rlt_false _ _ Hacc), (rnz_false b b eq_refl), (rlt_true _ _ Heps). reflexivity.
Qed.
Print Assumptions C141_zero_refuted.
Example C141_zero_example : root_secant 1 (line 1 (-5)) (fun _ => 0) (/ 1000) 100 = None.
Proof. apply C141_zero_refuted; [lia|lra|]. rewrite Rabs_left by lra. lra. Qed.
(** Values up to 30 times the default tolerance count as converged. *)
Theorem C141_tol_refuted : forall (x0 : vec) k, (1 <= k)%nat ->
  exists y : vec, root_secant 1 (line 0 (3 / 100)) x0 (/ 1000) k = Some y /\ line 0 (3 / 100) y 0%nat = 30 * / 1000.
Proof.
  intros x0 k Hk. unfold root_secant.
  match goal with |- exists y, sec_loop 1 _ ?tol k ?p0 ?p1 ?q0 ?q1 = _ /\ _ =>
    destruct (sloop_some 0 (3 / 100) tol k p0 p1 q0 q1 (p1 0%nat)) as (y & E & Y) end.
  - destruct k as [|k]; [lia|]. cbn [sloop]. rewrite rlt_true; [reflexivity|]. unfold line. lra.
  - exists y; split; [exact E|]. unfold line. lra.
Qed.
Print Assumptions C141_tol_refuted.

(** [root_array_newton_fast] stops once the mean of [(step - tol) ^ 2] is not above [tol]: with a tolerance of 1/1000 a
    step of 0.0325 ends the search, however far the result is from a root. *)
Theorem C140_fast_refuted : forall dx M, dx <> 0 -> dx <> 325 / 10000 -> 0 <= M ->
  exists f : R -> R, (exists a b c, forall x, f x = a * x ^ 2 + b * x + c) /\
    forall k, (1 <= k)%nat ->
      M <= Rabs (f (root_array_fast 1 dx (fun p i => f (p i)) (fun _ => 0) (/ 1000) k 0%nat)).
Proof.
  intros dx M D0 D1 HM. set (d := 325 / 10000) in *. set (c := M / ((dx - d) * d)).
  assert (Hd : d <> 0) by (unfold d; lra).
  exists (fun x => x - (dx - d) + c * x * (x - dx)). split.
  { exists c, (1 - c * dx), (- (dx - d)). intro x. ring. }
  intros k Hk.
  assert (E : root_array_fast 1 dx (fun p i => p i - (dx - d) + c * p i * (p i - dx)) (fun _ => 0) (/ 1000) k 0%nat = dx - d).
  { unfold root_array_fast, secant_with. destruct k as [|k]; [lia|]. cbn [secant_loop].
    assert (B : beside dx (fun _ => 0) 0%nat = dx) by (unfold beside; destruct (Rle_dec 0 0); lra).
    assert (N : rnz (beside dx (fun _ => 0) 0%nat - (dx - d) + c * beside dx (fun _ => 0) 0%nat * (beside dx (fun _ => 0) 0%nat - dx))
                    (0 - (dx - d) + c * 0 * (0 - dx)) = true).
    { apply rnz_true. rewrite B. intro Z. apply D0. lra. }
    rewrite (some_cell_true 1 _ 0 ltac:(lia) N).
    unfold go_mean. cbn [seq filter]. rewrite N. cbn [map cells_mean fold_right length INR].
    rewrite B. unfold rlt, cells_mean. cbn [fold_right length INR].
    replace ((dx - (dx - d) + c * dx * (dx - dx)) * (dx - 0) / (dx - (dx - d) + c * dx * (dx - dx) - (0 - (dx - d) + c * 0 * (0 - dx))))
      with d by (field; lra).
    destruct (Rlt_dec _ _) as [X|_]; [exfalso; unfold d in X; lra|]. rewrite N. rewrite B. field. lra. }
  rewrite E. replace (dx - d - (dx - d) + c * (dx - d) * (dx - d - dx)) with (- M) by (unfold c; field; split; lra).
  rewrite Rabs_Ropp, Rabs_pos_eq by exact HM. lra.
Qed.
Print Assumptions C140_fast_refuted.
