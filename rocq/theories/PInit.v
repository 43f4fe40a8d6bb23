(** * C171: while an object is constructed, attributes are read after they
      have been set; attributes read anywhere are set somewhere. *)
From Coq Require Import List Bool String PArith Arith Lia.
From Verif Require Import MPy LPy PPy MSrcInit.
Import ListNotations.
Local Open Scope string_scope.

(** The state of the k-th attribute before the constructor of [f] runs:
    methods and class variables ([f_params]) are there, nothing else. *)
Definition at_start (f : func) (k : nat) : bool := Nat.ltb k (List.length (f_params f)).

(** Some execution of the constructor [f] reads the k-th attribute of the
    object while the object does not have it (AttributeError). *)
Definition missing_read (known : oracle) (f : func) (k : nat) : Prop :=
  exists b2, run known (number k) (f_body f) (at_start f k) Unbound b2.

Definition attr (f : func) (k : nat) : string * string := (f_name f, nth k (f_names f) "").
Definition pair_eqb (a b : string * string) : bool :=
  String.eqb (fst a) (fst b) && String.eqb (snd a) (snd b).

Lemma pair_eqb_eq : forall a b, pair_eqb a b = true <-> a = b.
Proof.
  intros [a1 a2] [b1 b2]. unfold pair_eqb. cbn [fst snd]. rewrite andb_true_iff, !String.eqb_eq.
  split; [intros [? ?]; now subst|intros H; injection H; auto].
Qed.

Definition singleton (b : bool) : states := (negb b, b).

Lemma missing_exact : forall known f k,
  may_unbound known (number k) (f_body f) (singleton (at_start f k)) = true <-> missing_read known f k.
Proof.
  intros known f k. rewrite may_unbound_exact. unfold missing_read, singleton. split.
  - intros (b & b2 & E & R). exists b2. destruct b, (at_start f k); try discriminate; exact R.
  - intros (b2 & R). exists (at_start f k), b2. split; [|exact R]. destruct (at_start f k); reflexivity.
Qed.

(** ** The constructors *)

(** Attributes some execution reads too early, and the outcomes of tests under
    which none does: the only type of plate exchanger accepted (assertion in
    heatexchanger.py line 75, hex_num.py line 68); a PID controller with a
    proportional term (controllers.py line 50; see C171_integral_refuted); ports
    given by index (pipe_with_valve.py line 80 sets this) or by distance. *)
Definition early : list ((string * string) * cases) := [
  (("PID", "kp"), [[("self.terms in ['P', 'PI', 'PD', 'PID']", true)]]);
  (("PID", "ki"), [[("self.terms in ['P', 'PI', 'PD', 'PID']", true)]]);
  (("PID", "kd"), [[("self.terms in ['P', 'PI', 'PD', 'PID']", true)]]);
  (("HeatExchanger", "passes"), [[("self.HEx_type == 'plate_hex'", true)]]);
  (("HeatExchanger", "num_plates"), [[("self.HEx_type == 'plate_hex'", true)]]);
  (("HexNum", "passes"), [[("self.HEx_type == 'plate_hex'", true)]]);
  (("HexNum", "num_plates"), [[("self.HEx_type == 'plate_hex'", true)]]);
  (("Pipe2D", "_models"), []);
  (("PipeBranched", "_V_total"), [[("value[1] == 'index'", true)]; [("value[1] == 'volume'", false)]]);
  (("PipeBranched", "V_cell"), [[("value[1] == 'index'", true)]; [("value[1] == 'volume'", false)]]);
  (("PipeWith3wValve", "_V_total"), [[("value[1] == 'index'", true)]]);
  (("PipeWith3wValve", "V_cell"), [[("value[1] == 'index'", true)]])].

Definition early_agrees (f : func) : bool :=
  forallb (fun k => Bool.eqb (may_unbound nothing_known (number k) (f_body f) (singleton (at_start f k)))
                             (existsb (fun e => pair_eqb (attr f k) (fst e)) early)) (names_of f).

Lemma early_checked : forallb early_agrees constructors = true.
Proof. vm_cast_no_check (eq_refl true). Qed.

(** In the constructors of all classes, with the methods they call, exactly
    the listed attributes can be read before they are set. *)
Theorem C171_construction : forall f k, In f constructors -> (k < List.length (f_names f))%nat ->
  (missing_read nothing_known f k <-> exists cs, In (attr f k, cs) early).
Proof.
  intros f k F K. pose proof early_checked as C. rewrite forallb_forall in C. specialize (C _ F).
  unfold early_agrees in C. rewrite forallb_forall in C. specialize (C k).
  assert (I : In k (names_of f)) by (apply in_seq; lia).
  apply C in I. apply eqb_prop in I. rewrite <- missing_exact, I, existsb_exists. split.
  - intros ([e cs] & E & Q). apply pair_eqb_eq in Q. cbn [fst] in Q. subst e. now exists cs.
  - intros (cs & E). exists (attr f k, cs). split; [exact E|]. now apply pair_eqb_eq.
Qed.
Print Assumptions C171_construction.

Definition early_excused (e : (string * string) * cases) : bool :=
  forallb (fun f => forallb (fun k =>
    if pair_eqb (attr f k) (fst e)
    then forallb (fun c => forallb (known_test f) c &&
           negb (may_unbound (outcome f c) (number k) (f_body f) (singleton (at_start f k)))) (snd e)
    else true) (names_of f)) constructors.

Lemma early_excused_checked : forallb early_excused early = true.
Proof. vm_cast_no_check (eq_refl true). Qed.

(** With the outcomes of tests listed beside them, these are not read too early
    either. *)
Theorem C171_excused : forall f k cs c, In f constructors -> (k < List.length (f_names f))%nat ->
  In (attr f k, cs) early -> In c cs ->
  (forall t o, In (t, o) c -> In t (f_conds f)) /\ ~ missing_read (outcome f c) f k.
Proof.
  intros f k cs c F K E I. pose proof early_excused_checked as C. rewrite forallb_forall in C.
  specialize (C _ E). unfold early_excused in C. rewrite forallb_forall in C. specialize (C _ F).
  rewrite forallb_forall in C. assert (N : In k (names_of f)) by (apply in_seq; lia). specialize (C _ N).
  cbn [fst snd] in C. replace (pair_eqb (attr f k) (attr f k)) with true in C by (symmetry; now apply pair_eqb_eq).
  rewrite forallb_forall in C. specialize (C _ I). apply andb_true_iff in C. destruct C as [T U]. split.
  - intros t o IT. rewrite forallb_forall in T. specialize (T _ IT). unfold known_test in T. cbn [fst] in T.
    pose proof (find_name_spec t (f_conds f) 0) as FS. destruct (find_name t (f_conds f) 0); [|discriminate].
    destruct FS as (d & _ & FS). eapply nth_error_In; exact FS.
  - rewrite <- missing_exact. apply negb_true_iff in U. rewrite U. discriminate.
Qed.
Print Assumptions C171_excused.

(** All parts but five, both classes of controllers without gains and the
    environment itself: no attribute is read too early. *)
Theorem C171_clean : forall f k, In f constructors -> (k < List.length (f_names f))%nat ->
  In (f_name f) ["SimEnv"; "NetPlotter"; "FlowNet"; "Meters"; "Meters_2"; "Controls"; "BangBang"; "TwoSensors"; "ModelPredCHP";
                 "Pipe"; "HeatedPipe"; "PipeWithPump"; "CHPPlant"; "Pump"; "Tes"; "Connector3w"; "MixingValve";
                 "HEXCondPoly"] ->
  ~ missing_read nothing_known f k.
Proof.
  intros f k F K N M. apply (C171_construction f k F K) in M. destruct M as (cs & M).
  assert (H : forallb (fun e : (string * string) * cases => negb (existsb (String.eqb (fst (fst e)))
     ["SimEnv"; "NetPlotter"; "FlowNet"; "Meters"; "Meters_2"; "Controls"; "BangBang"; "TwoSensors"; "ModelPredCHP";
      "Pipe"; "HeatedPipe"; "PipeWithPump"; "CHPPlant"; "Pump"; "Tes"; "Connector3w"; "MixingValve";
      "HEXCondPoly"])) early = true) by reflexivity.
  rewrite forallb_forall in H. specialize (H _ M). apply negb_true_iff in H. cbn [fst] in H.
  rewrite <- not_true_iff_false in H. apply H. apply existsb_exists. exists (f_name f).
  split; [exact N|]. apply String.eqb_eq. reflexivity.
Qed.
Print Assumptions C171_clean.

(** The tables are not empty: 24 classes; constructing a pipe involves 90
    attributes or more. *)
Example C171_size : List.length constructors = 24%nat /\
  In init_Pipe constructors /\ (90 <= List.length (f_names init_Pipe))%nat /\
  existsb (String.eqb "num_gp") (f_locals init_Pipe) = true.
Proof. repeat split; [|apply Nat.leb_le; reflexivity]. unfold constructors. cbn [In]. intuition. Qed.

(** ** The two-dimensional pipe cannot be constructed *)

(** Line 110 of pipe2D.py reads [self._models], which line 114 sets: every
    execution of the constructor ends in an exception, and one that raises
    nothing before ends there. *)
Theorem C171_pipe2D_refuted : exists k, attr init_Pipe2D k = ("Pipe2D", "_models") /\
  (k < List.length (f_names init_Pipe2D))%nat /\
  (forall o b2, run nothing_known (number k) (f_body init_Pipe2D) (at_start init_Pipe2D k) o b2 ->
     o = Exn \/ o = Unbound) /\
  missing_read nothing_known init_Pipe2D k.
Proof.
  destruct (find_name "_models" (f_names init_Pipe2D) 0) as [k|] eqn:E; [|vm_compute in E; discriminate].
  exists k. vm_compute in E. injection E as E. subst k.
  match goal with |- attr _ ?k = _ /\ _ => set (k0 := k) end.
  split; [reflexivity|]. split; [apply Nat.ltb_lt; reflexivity|]. split.
  - intros o b2 R.
    assert (G : has (get (post nothing_known (number k0) (f_body init_Pipe2D)
                            (singleton (at_start init_Pipe2D k0))) o) b2 = true).
    { apply post_exact. exists (at_start init_Pipe2D k0). split; [|exact R]. reflexivity. }
    destruct o; auto; exfalso; revert G; destruct b2; vm_compute; discriminate.
  - apply missing_exact. vm_compute. reflexivity.
Qed.
Print Assumptions C171_pipe2D_refuted.

(** ** A port of a branched pipe given by volume *)

(** simenv.py lines 988-1012 read [self._V_total], which nothing in the
    package ever sets (C171_never_set): the object is without it in every
    state, and an execution placing a port by volume ends there. *)
Theorem C171_volume_refuted : exists k, attr init_PipeBranched k = ("PipeBranched", "_V_total") /\
  (k < List.length (f_names init_PipeBranched))%nat /\
  (forall o b2, run nothing_known (number k) (f_body init_PipeBranched) (at_start init_PipeBranched k) o b2 ->
     b2 = false) /\
  missing_read (outcome init_PipeBranched
    [("'new_ports' in kwargs", true); ("value[1] == 'index'", false); ("value[1] == 'volume'", true)])
    init_PipeBranched k.
Proof.
  destruct (find_name "_V_total" (f_names init_PipeBranched) 0) as [k|] eqn:E; [|vm_compute in E; discriminate].
  exists k. vm_compute in E. injection E as E. subst k.
  match goal with |- attr _ ?k = _ /\ _ => set (k0 := k) end.
  split; [reflexivity|]. split; [apply Nat.ltb_lt; reflexivity|]. split.
  - intros o b2 R.
    assert (G : has (get (post nothing_known (number k0) (f_body init_PipeBranched)
                            (singleton (at_start init_PipeBranched k0))) o) b2 = true).
    { apply post_exact. exists (at_start init_PipeBranched k0). split; [|exact R]. reflexivity. }
    destruct b2; [exfalso|reflexivity]. revert G; destruct o; vm_compute; discriminate.
  - apply missing_exact. vm_compute. reflexivity.
Qed.
Print Assumptions C171_volume_refuted.

(** ** A purely integral controller *)

(** controllers.py line 20 accepts terms='I', line 50 sets the gains only for
    the other four: every completed construction leaves the controller without
    the gain [self.ki], which each step reads (line 393 or 484). *)
Theorem C171_integral_refuted : exists k, attr init_PID k = ("PID", "ki") /\
  (k < List.length (f_names init_PID))%nat /\
  (forall o b2, o = Norm \/ o = Ret ->
     run (outcome init_PID [("self.terms in ['P', 'PI', 'PD', 'PID']", false)]) (number k) (f_body init_PID)
         (at_start init_PID k) o b2 -> b2 = false) /\
  run (outcome init_PID [("self.terms in ['P', 'PI', 'PD', 'PID']", false)]) (number k) (f_body init_PID)
      (at_start init_PID k) Norm false.
Proof.
  destruct (find_name "ki" (f_names init_PID) 0) as [k|] eqn:E; [|vm_compute in E; discriminate].
  exists k. vm_compute in E. injection E as E. subst k.
  match goal with |- attr _ ?k = _ /\ _ => set (k0 := k) end.
  split; [reflexivity|]. split; [apply Nat.ltb_lt; reflexivity|].
  set (w := outcome init_PID [("self.terms in ['P', 'PI', 'PD', 'PID']", false)]).
  assert (P : forall o b2, has (get (post w (number k0) (f_body init_PID) (singleton (at_start init_PID k0))) o) b2 = true <->
              run w (number k0) (f_body init_PID) (at_start init_PID k0) o b2).
  { intros o b2. rewrite post_exact. split.
    - intros (b & B & R). destruct b; [exfalso; revert B; vm_compute; discriminate|exact R].
    - intros R. exists (at_start init_PID k0). split; [reflexivity|exact R]. }
  split.
  - intros o b2 O R. apply P in R. destruct b2; [exfalso|reflexivity].
    destruct O; subst o; revert R; vm_compute; discriminate.
  - apply P. vm_compute. reflexivity.
Qed.
Print Assumptions C171_integral_refuted.

(** ** Attributes that are never set *)

Definition never_set : list (string * string) := [
  ("Controls", "ctrl_alg"); ("PID", "ctrl_alg"); ("BangBang", "ctrl_alg"); ("TwoSensors", "ctrl_alg");
  ("ModelPredCHP", "ctrl_alg");      (* controls.py line 800: init_controller() without arguments *)
  ("Controls", "run_controller");    (* line 893: given by each kind of controller *)
  ("MixingValve", "pfarr");          (* mixingvalve.py line 339: no_control=True, const_val=... *)
  ("Pipe2D", "_UA_wll_amb");         (* pipe2D.py lines 720, 839 *)
  ("SimEnv", "_get_flow_routine");   (* simenv.py line 2407: given by each part *)
  ("NetPlotter", "_get_flow_routine")].

Definition volume_classes : list string :=
  ["CHPPlant"; "Connector3w"; "HeatedPipe"; "HeatExchanger"; "HEXCondPoly"; "HexNum"; "MixingValve"; "Pipe"; "Pipe2D";
   "PipeBranched"; "PipeWithPump"; "PipeWith3wValve"; "Pump"; "Tes"; "SimEnv"; "NetPlotter"].

Definition set_nowhere : list (string * string) :=
  never_set ++ List.map (fun c => (c, "_V_total")) volume_classes.   (* simenv.py lines 1000, 1004 *)

Lemma set_checked :
  forallb (fun p : string * list string =>
    forallb (fun a => Bool.eqb (existsb (String.eqb a) assigned) (negb (existsb (pair_eqb (fst p, a)) set_nowhere)))
      (snd p)) attribute_reads = true.
Proof. vm_cast_no_check (eq_refl true). Qed.

(** Of all attributes the methods of a class read from their own object (other
    than its methods), exactly the listed ones are not assigned by any
    statement of the package to any object. *)
Theorem C171_never_set : forall c rs a, In (c, rs) attribute_reads -> In a rs ->
  (~ In a assigned <-> In (c, a) set_nowhere).
Proof.
  intros c rs a C A. pose proof set_checked as H. rewrite forallb_forall in H. specialize (H _ C). cbn [fst snd] in H.
  rewrite forallb_forall in H. specialize (H _ A). apply eqb_prop in H.
  assert (S1 : existsb (String.eqb a) assigned = true <-> In a assigned).
  { rewrite existsb_exists. split; [intros (x & X & E); apply String.eqb_eq in E; now subst|].
    intros X. exists a. split; [exact X|]. apply String.eqb_refl. }
  assert (S2 : existsb (pair_eqb (c, a)) set_nowhere = true <-> In (c, a) set_nowhere).
  { rewrite existsb_exists. split; [intros (x & X & E); apply pair_eqb_eq in E; now subst|].
    intros X. exists (c, a). split; [exact X|]. now apply pair_eqb_eq. }
  rewrite <- S1, <- S2, H. destruct (existsb (pair_eqb (c, a)) set_nowhere); cbn; split; intros; congruence.
Qed.
Print Assumptions C171_never_set.

Lemma set_nowhere_read :
  forallb (fun e => existsb (fun p : string * list string => String.eqb (fst e) (fst p) &&
                               existsb (String.eqb (snd e)) (snd p)) attribute_reads) set_nowhere = true.
Proof. vm_cast_no_check (eq_refl true). Qed.

(** Each of them is read by the class it is listed with; a static valve can
    therefore not be made: its constant values are written to an array it does
    not have. *)
Theorem C171_static_valve_refuted :
  (forall c a, In (c, a) set_nowhere -> exists rs, In (c, rs) attribute_reads /\ In a rs /\ ~ In a assigned) /\
  In ("MixingValve", "pfarr") set_nowhere /\ In ("BangBang", "ctrl_alg") set_nowhere.
Proof.
  split; [|split; [cbn; tauto|cbn; tauto]].
  intros c a H. pose proof set_nowhere_read as R. rewrite forallb_forall in R. specialize (R _ H). cbn [fst snd] in R.
  apply existsb_exists in R. destruct R as ([c' rs] & I & E). cbn [fst snd] in E. apply andb_true_iff in E.
  destruct E as [E1 E2]. apply String.eqb_eq in E1. subst c'. apply existsb_exists in E2. destruct E2 as (x & X & E).
  apply String.eqb_eq in E. subst x. exists rs. split; [exact I|]. split; [exact X|].
  apply (C171_never_set c rs a I X). exact H.
Qed.
Print Assumptions C171_static_valve_refuted.
