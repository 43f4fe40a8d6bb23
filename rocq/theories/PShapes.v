(** * C176: one step of a part stays inside its arrays. *)
From Coq Require Import ZArith List Bool String Lia.
From Verif Require Import MShapes MSrcShapes SShapes LShapes.
Import ListNotations.
Local Open Scope Z_scope.

(** ** Statements *)
(** A result that is no fault: the arrays have their shapes again, or an exception of the method itself is raised. *)
Definition in_order (t : table) (v : sizes) (r : result) : Prop :=
  match r with Returned a => shaped t v a | Raises => True | Faults => False end.

Lemma bounded_sensible : forall n v, sensible n v -> 0 <= n -> bounded [n; 1] v.
Proof.
  intros n v (HP & HN & H1) _ [|[|k]]; cbn; [exact HN | exact H1 | destruct k; apply HP].
Qed.

Definition pipes : list method := [m_Pipe; m_PipeBranched; m_PipeWithValve; m_HeatedPipe; m_CHPPlant; m_TES].
Definition others : list method := [m_HexNumImpl; m_HeatExchanger; m_MixingValve; m_Pump; m_HexNum_rest].

(** Parts with at least two cells (the others: one): any number of steps, with any data, uses no element outside of an
    array, joins no shapes that do not fit and leaves all shapes as they were. *)
Theorem C176_steps_stay_inside : forall m t v a ws,
  (In m pipes /\ sensible 2 v) \/ (In m others /\ sensible 1 v) ->
  table_of (m_part m) = Some t -> shaped t v a -> in_order t v (calls ws m a).
Proof.
  intros m t v a ws HM HT HS.
  assert (K : check [2; 1] t m = true /\ sensible 2 v \/ check [1; 1] t m = true /\ sensible 1 v).
  { destruct HM as [[HM HV]|[HM HV]]; [left | right]; (split; [|exact HV]); unfold pipes, others in HM; cbn [In] in HM;
      repeat (destruct HM as [<-|HM]; [vm_compute in HT; injection HT as <-; vm_compute; reflexivity|]); destruct HM. }
  destruct K as [[K HV]|[K HV]].
  - exact (check_calls [2; 1] t m v ws a K (bounded_sensible _ _ HV ltac:(lia)) HS).
  - exact (check_calls [1; 1] t m v ws a K (bounded_sensible _ _ HV ltac:(lia)) HS).
Qed.
Print Assumptions C176_steps_stay_inside.

(** Full statement: every part, every number of cells that is accepted (pipe.py accepts each number above 0). *)
Definition full_statement : Prop := forall m t v a ws,
  In m methods -> sensible 1 v -> table_of (m_part m) = Some t -> shaped t v a -> in_order t v (calls ws m a).

(** A pipe or storage with a single cell: no step can be done, whatever the data. *)
Lemma attr_shape : forall t v a s d, shaped t v a -> find t s = Some (Array [d]) -> a s = Some (VArr [leval v d]).
Proof. intros t v a s d HS HF. destruct (HS _ _ HF) as (x & Hx & ->). exact Hx. Qed.
Lemma single : forall m t v a w n x ua rho r1 r2, shaped t v a -> N v = 1 ->
  find t "_UA_tb" = Some (Array [n_ 1 1]) -> find t "_rhocp" = Some (Array [n_ 1 0]) ->
  (forall b, load (m_attrs m) b ua = b "_UA_tb"%string /\ load (m_attrs m) b rho = b "_rhocp"%string) ->
  nth_error (flat (m_body m)) n =
    Some (Store x [At (IC 0)] (XBin (XBin (XRed true (XBin (XSel (XVar ua) [Sl (BIx (IC 1)) (BEnd 1) SOne]) (XSel (XVar rho) [Sl (BIx (IC 1)) BNone SOne]))) r1) r2)) ->
  forallb (fun q => noraise q && forallb (fun x => leaves x q) [ua; rho]) (firstn n (flat (m_body m))) = true ->
  call w m a = Faults.
Proof.
  intros m t v a w n x ua rho r1 r2 HS HN F1 F2 HL HE HP. unfold call.
  rewrite (must_fail _ _ n _ [ua; rho] _ HE HP); [reflexivity|].
  destruct (HL a) as [L1 L2]. unfold N in HN.
  intros st Hst. apply reduce_fails; (rewrite Hst by (cbn; auto)); cbn [vars].
  - rewrite L1, (attr_shape _ _ _ _ _ HS F1). unfold leval; cbn. rewrite HN. reflexivity.
  - rewrite L2, (attr_shape _ _ _ _ _ HS F2). unfold leval; cbn. rewrite HN. reflexivity.
Qed.
Ltac single n ua rho :=
  eapply (single _ _ _ _ _ n _ ua rho); [eassumption | assumption | vm_compute; reflexivity | vm_compute; reflexivity |
    intro; split; vm_compute; reflexivity | vm_compute; reflexivity | vm_compute; reflexivity].
Theorem C176_single_cell_refuted : forall m t v a w,
  In m pipes -> N v = 1 -> table_of (m_part m) = Some t -> shaped t v a -> call w m a = Faults.
Proof.
  intros m t v a w HM HN HT HS. unfold pipes in HM; cbn [In] in HM.
  destruct HM as [<-|[<-|[<-|[<-|[<-|[<-|[]]]]]]]; vm_compute in HT; injection HT as <-.
  - single 54%nat 27%positive 20%positive.
  - single 54%nat 28%positive 21%positive.
  - single 54%nat 28%positive 21%positive.
  - single 57%nat 30%positive 23%positive.
  - single 51%nat 22%positive 62%positive.
  - single 63%nat 29%positive 22%positive.
Qed.
Print Assumptions C176_single_cell_refuted.

Lemma run_seq : forall w p q st, run w (Seq p q) st = match run w p st with Done s => run w q s | r => r end.
Proof. reflexivity. Qed.
Lemma eval_r : forall st x y, eval st y = None -> eval st (XBin x y) = None.
Proof. intros st x y E. cbn. rewrite E. destruct (eval st x); reflexivity. Qed.
Lemma eval_l : forall st x y, eval st x = None -> eval st (XBin x y) = None.
Proof. intros st x y E. cbn. rewrite E. reflexivity. Qed.

(** HexNum.get_diff hands the conductivities of the two fluids, (N, 2), to a function that reads them with the places of
    the ports in an array of shape (N, 3) (precomp_funs.py 2739, 288): no step stays inside, whatever the data. *)
Theorem C176_hexnum_refuted : forall v a w,
  sensible 1 v -> shaped t_hexnum v a -> hexnum_ports v a -> call w m_HexNum a = Faults.
Proof.
  intros v a w (_ & HN & _) HS HP. unfold call.
  assert (HL : exists l, a "_port_link_idx"%string = Some (VIdx l) /\ List.length l = 4%nat).
  { destruct (HS "_port_link_idx"%string _ eq_refl) as (x & Hx & l & -> & Hl & _). exists l. split; [exact Hx|]. unfold leval in Hl; cbn in Hl. lia. }
  destruct HL as (l & HL & Hl).
  assert (HA : a "_lam_fld"%string = Some (VArr [N v; 2])).
  { destruct (HS "_lam_fld"%string _ eq_refl) as (x & Hx & ->). rewrite Hx. unfold leval, N; cbn. do 3 f_equal.
    destruct (v 0%nat); reflexivity. }
  erewrite (must_fail _ _ 80 _ [30; 29; 12]%positive); [reflexivity | vm_compute; reflexivity | vm_compute; reflexivity |].
  intros st Hst.
  eapply (loop_fails _ _ _ _ 29%positive) with (lam := 12%positive) (l := l); try reflexivity.
  - rewrite Hst by (cbn; auto). exact HL.
  - exact Hl.
  - rewrite Hst by (cbn; auto). exact HP.
  - rewrite Hst by (cbn; auto). exact HA.
  - intros s HO HM HX.
    match goal with |- run w (Seq ?p ?q) s = _ => rewrite (run_seq w p q) end.
    match goal with |- context [run w ?e s] => set (p := e) end.
    pose proof (noraise_ok w p s eq_refl) as NR. destruct (run w p s) as [s1| |] eqn:R; [|congruence|reflexivity].
    rewrite <- (leaves_ok w 29%positive p s s1 eq_refl R) in HO. rewrite <- (leaves_ok w 12%positive p s s1 eq_refl R) in HM.
    rewrite <- (leaves_ok w 111%positive p s s1 eq_refl R) in HX.
    match goal with |- run w (Seq ?p ?q) s1 = _ => rewrite (run_seq w p q) end.
    assert (E : run w (LetInt 113 (IElem 29 (IV 111))) s1 = Done (bind s1 113 (VInt (3 * N v - 1)))).
    { cbn [run ival]. rewrite HO, HX. reflexivity. }
    rewrite E. erewrite (must_fail _ _ 5 _ [12; 113]%positive); [reflexivity | reflexivity | reflexivity |].
    intros s2 H2. cbn [run].
    match goal with |- context [eval s2 ?e] => assert (EV : eval s2 e = None) end.
    { apply eval_l, eval_r, eval_r, eval_r, eval_r. cbn [eval option_map ival]. rewrite !H2 by (cbn; auto). cbn [vars bind setv].
      unfold setv; cbn [Pos.eqb]. rewrite HM. cbn [shape option_map nelem fold_right]. unfold inside.
      replace (3 * N v - 1 <? N v * (2 * 1)) with false by (symmetry; apply Z.ltb_ge; lia). rewrite andb_false_r. reflexivity. }
    rewrite EV. destruct (vars s2 27) as [[]|]; try reflexivity. destruct (ival s2 (IV 111)); reflexivity.
Qed.
Print Assumptions C176_hexnum_refuted.

(** ** Cases that meet the hypotheses *)
Definition some_value (v : sizes) (d : decl) : value :=
  match d with
  | Scalar => VArr [] | Array l => VArr (map (leval v) l) | Index n lo hi => VIdx (repeat (leval v hi) (Z.to_nat (leval v n)))
  end.
Definition some_part (t : table) (v : sizes) : attributes := fun s => option_map (some_value v) (find t s).
Definition possible (v : sizes) (d : decl) : bool :=
  match d with Index n lo hi => (0 <=? leval v n) && (leval v lo <=? leval v hi) | _ => true end.
Lemma some_part_shaped : forall t v, forallb (fun p => possible v (snd p)) t = true -> shaped t v (some_part t v).
Proof.
  intros t v HP s d HF. exists (some_value v d). split; [unfold some_part; rewrite HF; reflexivity|].
  assert (P1 : possible v d = true).
  { clear - HP HF. induction t as [|[n e] t IH]; cbn in *; [discriminate|]. apply andb_true_iff in HP as [A B].
    destruct (String.eqb s n); [injection HF as <-; exact A | exact (IH B HF)]. }
  destruct d as [|l|n lo hi]; [reflexivity | reflexivity|]. cbn in P1 |- *. apply andb_true_iff in P1 as [A B]. apply Z.leb_le in A, B.
  eexists; split; [reflexivity|]. rewrite repeat_length. split; [lia|]. apply Forall_forall. intros z Hz. apply repeat_spec in Hz. lia.
Qed.
(** Four cells, three ports, ten ports in all, twenty rows of results, two heated cells. *)
Definition v1 : sizes := fun k => nth k [4; 3; 10; 20; 2] 0.
Definition single_cell : sizes := fun k => nth k [1; 3; 10; 20; 1] 0.
(** Data of one run: branches and masks alternate. *)
Definition w1 : oracle := mkO (fun k => Nat.odd k) (fun k i => Nat.even (k + i)).
Example ex_sensible : sensible 2 v1 /\ sensible 1 single_cell.
Proof.
  split; (split; [intro k; do 5 (destruct k as [|k]; [cbn; lia|]); cbn; destruct k; lia | cbn; lia]).
Qed.
Example ex_shaped : forall p t, table_of p = Some t -> shaped t v1 (some_part t v1).
Proof.
  intros p t HT. apply some_part_shaped. unfold table_of in HT.
  repeat match type of HT with context [if ?c then _ else _] => destruct c; [injection HT as <-; vm_compute; reflexivity|] end. discriminate.
Qed.
Example ex_storage : exists a, calls [w1; w1; w1] m_TES (some_part t_tes v1) = Returned a /\ a "_T_ext"%string = Some (VArr [6]) /\ a "dT_total"%string = Some (VArr [4]).
Proof. eexists; split; [vm_compute; reflexivity|]; split; vm_compute; reflexivity. Qed.
Example ex_all_parts : forallb (fun m => match table_of (m_part m) with
  | Some t => match calls [w1; w1] m (some_part t v1) with Returned _ => true | _ => false end | None => false end) (pipes ++ firstn 4 others) = true.
Proof. vm_compute; reflexivity. Qed.
(** An array of another length: one place too few for the ports. *)
Example ex_short_ports : call w1 m_Pipe (fun s => if String.eqb s "_T_port" then Some (VArr [1]) else some_part t_pipe v1 s) = Faults.
Proof. vm_compute; reflexivity. Qed.
Example ex_short_cells : call w1 m_TES (fun s => if String.eqb s "_rho_T" then Some (VArr [3]) else some_part t_tes v1 s) = Faults.
Proof. vm_compute; reflexivity. Qed.
Example ex_hexnum_ports : let a := fun s => if String.eqb s "_port_own_idx" then Some (VIdx [0; 9; 2; 11]) else some_part t_hexnum v1 s in
  shaped t_hexnum v1 a /\ hexnum_ports v1 a.
Proof.
  split; [|reflexivity]. intros s d HF. destruct (String.eqb s "_port_own_idx") eqn:E.
  - apply String.eqb_eq in E. subst. vm_compute in HF. injection HF as <-. eexists; split; [reflexivity|]. eexists; split; [reflexivity|].
    split; [reflexivity|]. repeat constructor; vm_compute; discriminate.
  - exact (some_part_shaped t_hexnum v1 eq_refl s d HF).
Qed.

(** The full statement does not hold. *)
Theorem C176_every_part_refuted : ~ full_statement.
Proof.
  intro F. pose proof (F m_Pipe t_pipe single_cell (some_part t_pipe single_cell) [w1]) as K.
  assert (E : calls [w1] m_Pipe (some_part t_pipe single_cell) = Faults) by (vm_compute; reflexivity).
  rewrite E in K. apply K; [left; reflexivity | apply ex_sensible | reflexivity | apply some_part_shaped; vm_compute; reflexivity].
Qed.
Print Assumptions C176_every_part_refuted.
