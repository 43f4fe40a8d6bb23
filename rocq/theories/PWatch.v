(** C122 (invalid values stop a run) and C123 (fixed steps). *)
From Coq Require Import Reals List Bool Arith ZArith Lia Lra String.
From Verif Require Import MSolver MSettings MWatch LSolver.
Import ListNotations.
Open Scope R_scope.

(** All attempts of a pass report an error which is not a number, without stability breach. *)
Definition nan_pass (p : pass) : Prop := forall i, p_out p i = OStable [] ENan.

(** ** One solver call with NaN errors accepts the smallest step *)
Lemma nan_loop c o : cfg_ok c -> (forall i, o i = OStable [] ENan) ->
  forall f i s u k s', step_loop c f o i s = Accepted u k s' ->
  u = c_min_step c /\ k = 6%nat /\ s_h s' = c_min_step c.
Proof.
  intros Hc Ho. induction f as [|f IH]; intros i s u k s' E; cbn in E; [discriminate|].
  rewrite Ho in E. cbn in E.
  destruct (Req_EM_T (s_h s) (c_min_step c)) as [H|H].
  - injection E as E1 E2 E3. subst. cbn. auto.
  - apply IH in E. exact E.
Qed.
Lemma nan_step_exists c o s : cfg_ok c -> (forall i, o i = OStable [] ENan) ->
  exists fuel s', solver_step c fuel o s = Accepted (c_min_step c) 6 s'.
Proof.
  intros Hc Ho.
  destruct (solver_step_terminates c o s Hc) as [fuel Hf].
  { intros i. rewrite Ho. exact I. }
  exists fuel. destruct (solver_step c fuel o s) as [u k s'| |] eqn:E; [| |congruence].
  - pose proof (nan_loop c o Hc Ho _ _ _ _ _ _ E) as (->&->&_). eauto.
  - exfalso. unfold solver_step in E. clear Hf. revert E. generalize 0%nat (enter s).
    induction fuel as [|f IH]; intros i t E; cbn in E; [discriminate|].
    rewrite Ho in E. cbn in E. destruct (Req_EM_T (s_h t) (c_min_step c)); [discriminate|].
    eapply IH, E.
Qed.

Lemma search_none total rows parts : existsb invalid parts = false ->
  nan_search total rows parts = GoOn.
Proof. intros H. unfold nan_search. rewrite H. now destruct (_ =? _)%nat. Qed.

(** Temperatures which are not numbers in parts whose mass flows are numbers (e.g. all parts of a
    pumped circuit) never stop a run: from any state, in memory or on disk, the loop goes through as
    many passes as fit into the remaining time, each advancing by the smallest step only. *)
Theorem C122_blind_refuted : forall c k p s n, cfg_ok c ->
  (forall i, nan_pass (p i) /\ Forall (fun q => nan_dm q = false) (p_parts (p i))) ->
  w_t s + INR n * c_min_step c < w_tf s + c_min_step c ->
  exists s', passes c k p n s s' /\ w_t s' = w_t s + INR n * c_min_step c /\ w_tf s' = w_tf s.
Proof.
  intros c k p s n Hc Hp. pose proof Hc as (_&Hm&_). induction n as [|n IH]; intros Hn.
  - exists s. cbn. split; [constructor|]. split; [ring|reflexivity].
  - rewrite S_INR in *. destruct IH as (s1&P1&T1&F1); [nra|].
    destruct (Hp n) as [Hnan Hdm].
    destruct (nan_step_exists c (p_out (p n)) (w_sol s1) Hc Hnan) as (fuel&sol&E).
    assert (Hex : existsb invalid (p_parts (p n)) = false).
    { clear - Hdm. induction Hdm as [|q l Hq _ IHl]; [reflexivity|]. cbn. unfold invalid at 1.
      rewrite Hq, andb_false_r. exact IHl. }
    eexists. split.
    + eapply ps_more with (fuel := fuel); [exact P1|lra|].
      unfold one_pass. rewrite E, search_none by exact Hex. reflexivity.
    + cbn. split; [rewrite T1; ring|exact F1].
Qed.
Print Assumptions C122_blind_refuted.

(** With the default settings one simulated second then takes a hundred million passes. *)
Example C122_blind_example : let p := {| p_out := fun _ => OStable [] ENan;
    p_parts := [{| nan_T := true; nan_dm := false |}] |} in
  exists s', passes cfg_default ToDisk (fun _ => p) (Z.to_nat 100000000)
    (start_of cfg_default 60 (60 * 100)) s' /\ w_t s' = 1 /\ w_tf s' = 60.
Proof.
  intros p. destruct (C122_blind_refuted cfg_default ToDisk (fun _ => p)
    (start_of cfg_default 60 (60 * 100)) (Z.to_nat 100000000) cfg_default_ok) as (s'&P&T&F).
  - intros i. split; [intros j; reflexivity|]. repeat constructor.
  - rewrite INR_IZR_INZ, Z2Nat.id by lia. cbn. lra.
  - exists s'. split; [exact P|]. rewrite T, F. rewrite INR_IZR_INZ, Z2Nat.id by lia. cbn. lra.
Qed.

(** ** What the search does when it sees an invalid part *)
Lemma invalid_ex parts : (exists q, In q parts /\ nan_T q = true /\ nan_dm q = true) ->
  existsb invalid parts = true.
Proof. intros (q&I&A&B). apply existsb_exists. exists q. unfold invalid. now rewrite A, B. Qed.

(** In memory: the state of the counters during a run. *)
Lemma memory_total c b p n s s' : passes c (InMemory b) p n s s' -> w_total s' = w_total s.
Proof.
  induction 1 as [|n s s1 s2 fuel _ IH _ E]; [reflexivity|]. unfold one_pass in E.
  destruct (solver_step _ _ _ _); try discriminate.
  destruct (nan_search _ _ _); try discriminate; injection E as <-; cbn; exact IH.
Qed.
Lemma memory_num c b p n s s' : passes c (InMemory b) p n s s' -> (w_num s <= w_num s')%nat.
Proof.
  induction 1 as [|n s s1 s2 fuel _ IH _ E]; [lia|]. unfold one_pass in E.
  destruct (solver_step _ _ _ _); try discriminate.
  destruct (nan_search _ _ _); try discriminate; injection E as <-; cbn;
    destruct (_ && _)%bool; lia.
Qed.

(** In memory with at least 5000 rows the first pass after which one part has invalid temperatures
    and invalid mass flows is the last one (unless less than a nanosecond has been simulated). *)
Theorem C122_stop : forall c b p n tf num s fuel u code sol, (4999 <= num)%nat ->
  passes c (InMemory b) p n (start_of c tf num) s ->
  solver_step c fuel (p_out (p n)) (w_sol s) = Accepted u code sol ->
  (exists q, In q (p_parts (p n)) /\ nan_T q = true /\ nan_dm q = true) ->
  exists s', one_pass c fuel (InMemory b) (p n) s = Some (Going s') /\ w_t s' = w_t s + u /\
    w_tf s' = 1e-9 /\
    (1e-9 <= w_t s' -> forall m p' s'', passes c (InMemory b) p' m s' s'' -> m = 0%nat).
Proof.
  intros c b p n tf num s fuel u code sol Hn P E Hq.
  pose proof (memory_total _ _ _ _ _ _ P) as T. pose proof (memory_num _ _ _ _ _ _ P) as N.
  cbn in T, N. unfold one_pass. rewrite E.
  match goal with |- context [nan_search _ (S ?x) _] => set (num' := x) end.
  assert (HN : (4999 <= num')%nat) by (subst num'; destruct (_ && _)%bool; lia).
  clearbody num'. unfold nan_search. rewrite T, (invalid_ex _ Hq). cbn [Nat.modulo].
  replace (0 mod 5000 =? 0)%nat with true by reflexivity.
  unfold index_ok.
  replace (- Z.of_nat (S num') <=? Z.of_nat 0 - 5000)%Z with true by (symmetry; apply Z.leb_le; lia).
  replace (Z.of_nat 0 - 5000 <? Z.of_nat (S num'))%Z with true by (symmetry; apply Z.ltb_lt; lia).
  replace (- Z.of_nat (S num') <=? Z.of_nat 0)%Z with true by (symmetry; apply Z.leb_le; lia).
  replace (Z.of_nat 0 <? Z.of_nat (S num'))%Z with true by (symmetry; apply Z.ltb_lt; lia).
  cbn [andb]. eexists. split; [reflexivity|]. cbn [w_t w_tf]. split; [reflexivity|].
  split; [reflexivity|]. intros L m p' s'' Q.
  assert (G : forall z, passes c (InMemory b) p' m z s'' -> 1e-9 <= w_t z -> w_tf z = 1e-9 -> m = 0%nat).
  { clear. intros z Q. induction Q as [|m z s1 s2 f Q IH H _]; [reflexivity|].
    intros A B. assert (m = 0%nat) by (apply IH; assumption). subst m. inversion Q; subst. lra. }
  apply (G _ Q); cbn; auto.
Qed.
Print Assumptions C122_stop.

Lemma Int_part_IZR z : Int_part (IZR z) = z.
Proof.
  destruct (base_Int_part (IZR z)) as [A B]. apply le_IZR in A.
  assert (C : IZR (z - 1) < IZR (Int_part (IZR z))) by (rewrite minus_IZR; lra).
  apply lt_IZR in C. lia.
Qed.
Lemma default_first_step fuel_out : (forall i, fuel_out i = OStable [] (ENum 0)) ->
  solver_step cfg_default 1 fuel_out (init_sst cfg_default) =
  Accepted 1 7 (mkSst (cap cfg_default 2) None 2 1 0).
Proof.
  intros H. unfold solver_step, step_loop, attempt. rewrite H. cbn.
  destruct (Rlt_dec 0 0); [lra|]. destruct (Req_EM_T 0 0); [|lra].
  f_equal. f_equal. f_equal. ring.
Qed.
Lemma rows_60 : (4999 <= rows_for 60 (100 * 100))%nat.
Proof.
  unfold rows_for. assert (I : Int_part (- (60)) = (-60)%Z).
  { rewrite <- (Int_part_IZR (-60)). f_equal. }
  rewrite I. apply Nat.min_glb; lia.
Qed.
Example C122_stop_example : let p := fun _ : nat => {| p_out := fun _ => OStable [] (ENum 0);
    p_parts := [{| nan_T := false; nan_dm := false |}; {| nan_T := true; nan_dm := true |}] |} in
  exists s', one_pass cfg_default 1 (InMemory (60 * 100)) (p 0%nat) (start_of cfg_default 60 (rows_for 60 (100 * 100)))
    = Some (Going s') /\ w_t s' = 1 /\ w_tf s' = 1e-9.
Proof.
  intros p. pose proof rows_60 as L. revert L. generalize (rows_for 60 (100 * 100)) (60 * 100)%nat. intros num b L.
  destruct (C122_stop cfg_default b p 0 60 num
    (start_of cfg_default 60 num) 1 1 7
    (mkSst (cap cfg_default 2) None 2 1 0)) as (s'&E&T&F&_).
  - exact L.
  - constructor.
  - apply default_first_step. reflexivity.
  - exists {| nan_T := true; nan_dm := true |}. cbn. auto.
  - exists s'. split; [exact E|]. rewrite T, F. cbn. split; [ring|reflexivity].
Qed.

(** With a time frame of at most 49 seconds the arrays are too short for the position the message
    reads: the search itself raises. *)
Lemma quiet_state c k p tf num n s : passes c k p n (start_of c tf num) s -> (n < num)%nat ->
  w_step s = S n /\ w_num s = num /\ w_total s = 0%nat.
Proof.
  remember (start_of c tf num) as s0 eqn:E0. intros P. revert E0.
  induction P as [|n s s1 s2 fuel P IH _ E]; intros E0 L; [subst; cbn; auto|].
  destruct (IH E0) as (A&B&C); [lia|]. unfold one_pass in E.
  destruct (solver_step _ _ _ _); try discriminate.
  rewrite A, B, C in E. replace (S n =? num)%nat with false in E by (symmetry; apply Nat.eqb_neq; lia).
  cbn [andb] in E. destruct k;
  (destruct (nan_search _ _ _); try discriminate; injection E as <-; cbn; auto).
Qed.
Theorem C122_short_refuted : forall c k p n tf cap s fuel u code sol, 0 < tf <= 49 ->
  passes c k p n (start_of c tf (rows_for tf cap)) s -> (S n < rows_for tf cap)%nat ->
  solver_step c fuel (p_out (p n)) (w_sol s) = Accepted u code sol ->
  (exists q, In q (p_parts (p n)) /\ nan_T q = true /\ nan_dm q = true) ->
  one_pass c fuel k (p n) s = Some (Broke IndexError).
Proof.
  intros c k p n tf cap s fuel u code sol Ht P L E Hq.
  destruct (quiet_state _ _ _ _ _ _ _ P ltac:(lia)) as (A&B&C).
  assert (H : (rows_for tf cap <= 4900)%nat).
  { unfold rows_for. assert (I : (-49 <= Int_part (- tf))%Z).
    { destruct (base_Int_part (- tf)) as [_ G]. assert (-50 < IZR (Int_part (- tf))) by lra.
      apply lt_IZR in H. lia. } lia. }
  unfold one_pass. rewrite E, A, B, C.
  replace (S n =? rows_for tf cap)%nat with false by (symmetry; apply Nat.eqb_neq; lia).
  cbn [andb]. revert H. generalize (rows_for tf cap). intros num H.
  assert (G : nan_search 0 (S num) (p_parts (p n)) = Fails IndexError).
  { unfold nan_search. rewrite (invalid_ex _ Hq). replace (0 mod 5000 =? 0)%nat with true by reflexivity.
    unfold index_ok.
    replace (- Z.of_nat (S num) <=? Z.of_nat 0 - 5000)%Z with false by (symmetry; apply Z.leb_gt; lia).
    reflexivity. }
  destruct k; rewrite G; reflexivity.
Qed.
Print Assumptions C122_short_refuted.

Example C122_short_example : let p := fun _ : nat => {| p_out := fun _ => OStable [] (ENum 0);
    p_parts := [{| nan_T := true; nan_dm := true |}] |} in
  one_pass cfg_default 1 ToDisk (p 0%nat) (start_of cfg_default 30 (rows_for 30 (100 * 100)))
    = Some (Broke IndexError).
Proof.
  intros p.
  apply (C122_short_refuted cfg_default ToDisk p 0 30 (100 * 100)
    (start_of cfg_default 30 (rows_for 30 (100 * 100))) 1 1 7
    (mkSst (cap cfg_default 2) None 2 1 0)); [lra|constructor| | |].
  - unfold rows_for. assert (I : Int_part (- (30)) = (-30)%Z).
    { rewrite <- (Int_part_IZR (-30)). f_equal. }
    rewrite I. apply Nat.min_glb; lia.
  - apply default_first_step. reflexivity.
  - exists {| nan_T := true; nan_dm := true |}. split; [left; reflexivity|split; reflexivity].
Qed.

(** On disk, once more steps are banked than rows exist (after the second flush), a pass never ends
    the run: either invalid values are not looked for or the search raises. *)
Lemma disk_num c p n s s' : passes c ToDisk p n s s' ->
  w_num s' = w_num s /\ (w_total s <= w_total s')%nat.
Proof.
  induction 1 as [|n s s1 s2 fuel _ IH _ E]; [auto|]. unfold one_pass in E.
  destruct (solver_step _ _ _ _); try discriminate.
  destruct (nan_search _ _ _); try discriminate; injection E as <-; cbn;
    destruct (_ && _)%bool; lia.
Qed.
Theorem C122_disk_refuted : forall c p n s s', (w_num s < w_total s)%nat ->
  passes c ToDisk p n s s' -> w_tf s' = w_tf s.
Proof.
  intros c p n s s' L P. induction P as [|n s s1 s2 fuel P IH _ E]; [reflexivity|].
  destruct (disk_num _ _ _ _ _ P) as [A B]. rewrite <- (IH L). unfold one_pass in E.
  destruct (solver_step _ _ _ _); try discriminate.
  destruct (nan_search _ _ _) eqn:G; try discriminate; injection E as <-; cbn; [reflexivity|].
  exfalso. unfold nan_search in G.
  destruct (_ =? _)%nat; [|discriminate]. destruct (existsb _ _); [|discriminate].
  destruct (index_ok _ (_ - _)); [|discriminate].
  unfold index_ok in G.
  match type of G with context [Z.ltb (Z.of_nat ?x) _] => set (tot := x) in G end.
  assert (HT : (w_num s < tot)%nat) by (clear G; subst tot; destruct (_ && _)%bool; lia).
  clearbody tot. clear IH.
  replace (Z.of_nat tot <? Z.of_nat (S (w_num s1)))%Z with false in G
    by (symmetry; apply Z.ltb_ge; lia).
  rewrite andb_false_r in G. discriminate.
Qed.
Print Assumptions C122_disk_refuted.
(** Reached by any run which flushes twice: after the second flush [2 num] steps are banked. *)
Lemma C122_disk_banked c fuel p s u code sol :
  solver_step c fuel (p_out p) (w_sol s) = Accepted u code sol ->
  w_step s = w_num s -> w_total s = w_num s -> (0 < w_num s)%nat -> w_t s + u < w_tf s ->
  Forall (fun q => nan_T q = false) (p_parts p) ->
  exists s', one_pass c fuel ToDisk p s = Some (Going s') /\ (w_num s' < w_total s')%nat.
Proof.
  intros E A B Hp L F. unfold one_pass. rewrite E, A, B, Nat.eqb_refl.
  destruct (Rlt_dec (w_t s + u) (w_tf s)) as [_|]; [|lra]. cbn [andb].
  rewrite search_none.
  - eexists. split; [reflexivity|]. cbn. lia.
  - clear - F. induction F as [|q l Hq _ IH]; [reflexivity|]. cbn. unfold invalid at 1. now rewrite Hq.
Qed.

(** ** C123: fixed steps *)
(** Whatever time frame and step [set_timeframe] accepts with [adaptive_steps=False], the first call
    of the solver raises a TypeError: it is given four arguments and takes three. *)
Theorem C123_call_refuted : forall (A : Type) timeframe kw md (parts : list A),
  set_timeframe timeframe (VBool false) kw = Some md -> first_call md parts = inr TypeError.
Proof.
  intros A timeframe kw md parts H. unfold set_timeframe in H.
  destruct (number timeframe) as [[T| | |]|]; try discriminate.
  destruct (Rlt_dec 0 T); [|discriminate]. destruct (lookup "timestep" kw); [|discriminate].
  destruct (number v); [|discriminate]. destruct (nlt _ _); [|discriminate].
  injection H as <-. reflexivity.
Qed.
Print Assumptions C123_call_refuted.
(** With the right number of arguments the method would still raise with the first part it asks for
    slopes, while the adaptive method gets through. *)
Theorem C123_slopes_refuted : forall (A : Type) (p : A) parts,
  first_slopes Heun (p :: parts) = inr TypeError /\
  forall timeframe kw md, set_timeframe timeframe (VBool true) kw = Some md ->
    first_call md (p :: parts) = inl (p :: parts).
Proof.
  intros A p parts. split; [reflexivity|]. intros timeframe kw md H. unfold set_timeframe in H.
  destruct (number timeframe) as [[T| | |]|]; try discriminate.
  destruct (Rlt_dec 0 T); [|discriminate].
  repeat match type of H with
  | context [match ?x with _ => _ end] => destruct x; try discriminate
  end. injection H as <-. reflexivity.
Qed.
Print Assumptions C123_slopes_refuted.
Example C123_example : exists md, set_timeframe (VInt 3600) (VBool false)
  [("timestep"%string, VFloat (Fin 0.5))] = Some md /\ first_call md [tt] = inr TypeError.
Proof.
  exists (Constant 3600 (Fin 0.5)). assert (H : set_timeframe (VInt 3600) (VBool false)
    [("timestep"%string, VFloat (Fin 0.5))] = Some (Constant 3600 (Fin 0.5))).
  { unfold set_timeframe. cbn. destruct (Rlt_dec 0 3600); [|lra]. destruct (Rlt_dec 0 0.5); [|lra].
    reflexivity. }
  split; [exact H|]. eapply C123_call_refuted, H.
Qed.
