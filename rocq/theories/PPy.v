(** * C168: names are bound before they are used.

    Over the control flow of all 480 functions, methods and class bodies and
    all 36 module files of /repo/multisim ([MSrc*.v]). *)
From Coq Require Import List Bool String PArith Arith Lia.
From Verif Require Import MPy LPy MSrcSim MSrcPre MSrcUt MSrcParts.
Import ListNotations.
Local Open Scope nat_scope.
Local Open Scope string_scope.

Definition package : list (func * list func) :=
  List.app table_Sim (List.app table_Pre (List.app table_Ut table_Parts)).

(** [f] is a function of module [m] of the package, or the module file itself. *)
Definition in_package (m f : func) : Prop :=
  exists fs, In (m, fs) package /\ In f (m :: fs).

Definition label := (string * string * string)%type. (* file, function, name *)
Definition label_eqb (a b : label) : bool :=
  let '(a1, a2, a3) := a in let '(b1, b2, b3) := b in
  String.eqb a1 b1 && String.eqb a2 b2 && String.eqb a3 b3.
Definition label_of (f : func) (k : nat) : label := (f_file f, f_name f, nth k (f_names f) "").

Lemma label_eqb_eq : forall a b, label_eqb a b = true <-> a = b.
Proof.
  intros [[a1 a2] a3] [[b1 b2] b3]. unfold label_eqb. rewrite !andb_true_iff, !String.eqb_eq.
  split; [intros [[-> ->] ->]; reflexivity|intros E; injection E; auto].
Qed.

(** ** The names some execution of the control flow reads while unbound *)

(** Two branches for opposite outcomes of the same test, or one branch per
    permitted value after the value has been checked: no call gets there (shown
    in [C168_excused]).  Given with the cases that between them cover every
    call: a list of outcomes per case. *)
Definition cases := list (list (string * bool)).
Definition one_of (always : string) (l : list string) : cases :=
  [(always, false)] :: map (fun s => [(s, true)]) l.
Definition styles : cases :=
  one_of "style in ('SI', 'in', 'parentheses', 'IEEE')"
    ["style == 'SI'"; "style == 'in'"; "style == 'parentheses'"; "style == 'IEEE'"].
Definition places : cases :=
  one_of "loc in ('top left', 'top right', 'bottom left', 'bottom right', 'top center', 'lower ce..."
    ["loc == 'top left'"; "loc == 'top right'"; "loc == 'bottom left'"; "loc == 'bottom right'";
     "loc == 'top center'"; "loc == 'lower center'"; "loc == 'center left'"; "loc == 'center right'"].
Definition sprachen : cases :=
  one_of "sprache in ('eng', 'de')" ["sprache == 'eng'"; "sprache == 'de'"].
Definition languages : cases :=
  one_of "language in ('eng', 'de')" ["language == 'eng'"; "language == 'de'"].
Definition inverted : cases :=
  [[("'invert' not in self.info_plot or not self.info_plot['invert']", true)];
   [("self.info_plot['invert']", true)]].
Definition two_d : cases := [[("self._T_port.ndim == 1", true)]; [("self._T_port.ndim == 2", true)]].

Definition excused : list (label * cases) := [
  ("simenv.py", "SimEnv._add_open_port", "tmprtr", [[("not constant", true)]; [("not constant", false)]]);
  ("simenv.py", "SimEnv._update_ports", "values",
     one_of "source == 'results' or source == 'intermediate'" ["source == 'results'"; "source == 'intermediate'"]);
  ("simenv.py", "SimEnv._get_arr_idx", "idx",
     one_of "target in sup_idx" ["target == 'temperature'"; "target == 'massflow'"; "target == 'port_specs'"]);
  ("simenv.py", "SimEnv._get_topo_cond", "trgt_idx", two_d);
  ("simenv.py", "SimEnv._get_topo_cond", "src_idx",
     [[("self._models.parts[src_part]._T_port.ndim == 1", true)];
      [("self._models.parts[src_part]._T_port.ndim == 2", true)]]);
  ("utility_functions.py", "plot_pr_scatter", "datap", sprachen);
  ("utility_functions.py", "plot_pr_scatter", "bsline", sprachen);
  ("utility_functions.py", "plot_pr_scatter", "xlabel", sprachen);
  ("utility_functions.py", "plot_pr_scatter", "ylabel", sprachen);
  ("utility_functions.py", "si_axlabel", "axlabel", styles);
  ("utility_functions.py", "annotate_axes", "xy", places);
  ("utility_functions.py", "annotate_axes", "xytext", places);
  ("utility_functions.py", "opt_control.simenv_wrapper", "part2_res",
     [[("flow_only", true)]; [("not flow_only", true)]]);
  ("_utility/plotting.py", "prediction_realization_scatter", "datap", languages);
  ("_utility/plotting.py", "prediction_realization_scatter", "bsline", languages);
  ("_utility/plotting.py", "prediction_realization_scatter", "xlabel", languages);
  ("_utility/plotting.py", "prediction_realization_scatter", "ylabel", languages);
  ("_utility/plotting.py", "si_axlabel", "axlabel", styles);
  ("_utility/plotting.py", "annotate_axes", "xy", places);
  ("_utility/plotting.py", "annotate_axes", "xytext", places);
  ("parts/connector_3w.py", "Connector3w.draw_part", "p1", inverted);
  ("parts/connector_3w.py", "Connector3w.draw_part", "p2", inverted);
  ("parts/mixingvalve.py", "MixingValve.draw_part", "p1", inverted);
  ("parts/mixingvalve.py", "MixingValve.draw_part", "p2", inverted);
  ("parts/part_modules/suppliers.py", "chp_with_fghex", "tes_cap_min",
     [[("chp_ctrl['chp_mode'] == 'el_mod'", true)]; [("chp_ctrl['chp_mode'] == 'el_mod'", false)]]);
  ("parts/part_modules/suppliers.py", "chp_with_fghex", "tes_cap_max",
     [[("chp_ctrl['chp_mode'] == 'el_mod'", true)]; [("chp_ctrl['chp_mode'] == 'el_mod'", false)]]);
  ("parts/pump.py", "Pump.draw_part", "txt_constr", [[("animate", true)]; [("animate", false)]]);
  ("parts/pump.py", "Pump.draw_part", "arr_view", [[("animate", true)]; [("animate", false)]])].

(** Arguments with which a function always ends in the error (shown in the
    [_refuted] theorems below). *)
Definition crashing : list (label * list (string * bool)) := [
  ("utility_functions.py", "load_results_by_name", "_sn_sdirs", [("set_numbers is not None", false)]);
  ("utility_functions.py", "make_boundarycond_timeseries", "bc_ts", [("bc_duration != ts_timedelta", false)]);
  ("utility_functions.py", "database_import", "pth",
     [("standard_db", false); ("not path", false); ("which == 'all'", true)]);
  ("_utility/plotting.py", "prediction_realization_2d_kde", "cont_kwds",
     [("norm and norm != 'log'", false); ("norm == 'log'", false); ("not contour", false)]);
  ("precomp_funs.py", "root_array_newton_fast", "q1", [("fprime is not None", true)]);
  ("precomp_funs.py", "_process_flow_invar_fast", "dm_port", [("process_flows[0]", false)])].

(** The rest depends on data: the number of passes through a loop, counters
    and attributes that the control flow does not show. *)
Definition data_dependent : list label := [
  ("simenv.py", "SimEnv._get_port_connections", "src_idx");
  ("simenv.py", "SimEnv._recursive_topology", "channel");
  ("simenv.py", "SimEnv._get_arr_idx", "parts_dict");
  ("simenv.py", "SimEnv._get_arr_idx", "fc_idx");
  ("simenv.py", "SimEnv._heun_adaptive", "err_rms");
  ("simenv.py", "SimEnv.__adaptive_step_control", "timestep");
  ("precomp_funs.py", "condensing_hex_solve", "water_dm_excess");
  ("precomp_funs.py", "weighted_moving_avg", "i");
  ("precomp_funs.py", "condensing_hex_quad_poly", "b");
  ("precomp_funs.py", "root_array_newton_fast", "iteration");
  ("utility_functions.py", "database_import", "file");
  ("utility_functions.py", "NetPlotter.set_plot_shape", "conn_part");
  ("utility_functions.py", "NetPlotter.set_plot_shape", "conn_port");
  ("utility_functions.py", "NetPlotter.set_plot_shape", "max_key");
  ("utility_functions.py", "NetPlotter.plot_net", "lines");
  ("parts/connector_3w.py", "Connector3w._get_flow_routine", "src_part");
  ("parts/connector_3w.py", "Connector3w._get_flow_routine", "src_port");
  ("parts/controllers.py", "ModelPredCHP._instandh_chp_nonflat", "instandhaltung_chp");
  ("parts/pipe_branched.py", "PipeBranched._get_flow_routine", "src_part");
  ("parts/pipe_with_valve.py", "PipeWith3wValve._get_flow_routine", "operation_id");
  ("parts/pipe_with_valve.py", "PipeWith3wValve._get_flow_routine", "op_routine");
  ("parts/tes.py", "Tes._get_flow_routine", "src_part")].

Definition findings : list label :=
  List.app (map fst excused) (List.app (map fst crashing) data_dependent).

(** ** Exactly these names *)

Definition names_of (f : func) : list nat := seq 0 (List.length (f_names f)).
Definition agrees (m f : func) : bool :=
  forallb (fun k => Bool.eqb (may_read_unbound m f k) (existsb (label_eqb (label_of f k)) findings)) (names_of f).
Fixpoint nodupb (l : list string) : bool :=
  match l with [] => true | h :: t => negb (existsb (String.eqb h) t) && nodupb t end.

Lemma nodupb_NoDup : forall l, nodupb l = true -> NoDup l.
Proof.
  induction l as [|h t IH]; cbn; intros H; constructor; apply andb_true_iff in H; destruct H as [N H].
  - intros I. apply negb_true_iff in N. rewrite <- not_true_iff_false in N. apply N.
    apply existsb_exists. exists h. split; [exact I|apply String.eqb_refl].
  - now apply IH.
Qed.

Lemma package_checked :
  forallb (fun mf : func * list func =>
    nodupb (f_locals (fst mf)) && forallb (agrees (fst mf)) (fst mf :: snd mf)) package = true.
Proof. vm_cast_no_check (eq_refl true). Qed.

Lemma in_package_checked : forall m f, in_package m f -> NoDup (f_locals m) /\ agrees m f = true.
Proof.
  intros m f (fs & P & F). pose proof package_checked as H. rewrite forallb_forall in H.
  specialize (H _ P). cbn [fst snd] in H. apply andb_true_iff in H. destruct H as [N H].
  split; [now apply nodupb_NoDup|]. rewrite forallb_forall in H. now apply H.
Qed.

(** For every function of the package and every name it uses: some execution
    of its control flow reads the name while it is unbound if and only if the
    name is listed above. *)
Theorem C168_unbound_names : forall m f k, in_package m f -> (k < List.length (f_names f))%nat ->
  unbound_read m f k <-> In (label_of f k) findings.
Proof.
  intros m f k P K. destruct (in_package_checked m f P) as [N A].
  rewrite <- (may_read_unbound_exact m f k N). unfold agrees in A. rewrite forallb_forall in A.
  assert (I : In k (names_of f)) by (apply in_seq; lia).
  apply A in I. apply eqb_prop in I. rewrite I, existsb_exists. split.
  - intros (l & L & E). apply label_eqb_eq in E. now rewrite E.
  - intros L. exists (label_of f k). split; [exact L|now apply label_eqb_eq].
Qed.
Print Assumptions C168_unbound_names.

(** The functions of the package, with the number of names each uses. *)
Example C168_package_size :
  (List.length package = 36 /\ List.length (flat_map (fun mf : func * list func => snd mf) package) = 480 /\
  List.length findings = 56)%nat.
Proof. vm_compute. repeat split. Qed.

(** ** No name is missing from a module *)

Definition outer_agrees (m f : func) : bool :=
  forallb (fun k => negb (may_read_unbound m f k) || Nat.ltb k (List.length (List.app (f_params f) (List.app (f_closure f) (f_locals f)))))
    (names_of f).

Lemma outer_checked :
  forallb (fun mf : func * list func => forallb (outer_agrees (fst mf)) (fst mf :: snd mf)) package = true.
Proof. vm_cast_no_check (eq_refl true). Qed.

(** Every name a function takes from its module -- imported modules, other
    functions, constants -- is there once the module is loaded, and is no
    misspelt or forgotten name, whatever the module's own branches and
    exception handlers do. *)
Theorem C168_module_names : forall m f k, in_package m f ->
  (List.length (List.app (f_params f) (List.app (f_closure f) (f_locals f))) <= k < List.length (f_names f))%nat ->
  ~ unbound_read m f k.
Proof.
  intros m f k P K. destruct (in_package_checked m f P) as [N _].
  rewrite <- (may_read_unbound_exact m f k N). intros U.
  destruct P as (fs & P & F). pose proof outer_checked as H. rewrite forallb_forall in H.
  specialize (H _ P). cbn [fst snd] in H. rewrite forallb_forall in H. specialize (H _ F).
  unfold outer_agrees in H. rewrite forallb_forall in H.
  assert (I : In k (names_of f)) by (apply in_seq; lia). specialize (H _ I).
  rewrite U in H. cbn in H. apply Nat.ltb_lt in H. lia.
Qed.
Print Assumptions C168_module_names.

Definition loads (m : func) : bool :=
  forallb (fun k => negb (may_read_unbound m m k)) (names_of m).
Lemma loads_checked : forallb (fun mf : func * list func => loads (fst mf)) package = true.
Proof. vm_cast_no_check (eq_refl true). Qed.

(** Loading a module file uses no name before it is bound. *)
Theorem C168_loading : forall m fs k, In (m, fs) package -> (k < List.length (f_names m))%nat ->
  ~ unbound_read m m k.
Proof.
  intros m fs k P K. assert (IP : in_package m m) by (exists fs; split; [exact P|now left]).
  destruct (in_package_checked m m IP) as [N _].
  rewrite <- (may_read_unbound_exact m m k N). intros U.
  pose proof loads_checked as H. rewrite forallb_forall in H. specialize (H _ P). cbn [fst] in H.
  unfold loads in H. rewrite forallb_forall in H.
  assert (I : In k (names_of m)) by (apply in_seq; lia). specialize (H _ I). rewrite U in H. discriminate.
Qed.
Print Assumptions C168_loading.

(** ** Executions in which some tests have a fixed outcome *)

(** The outcomes given for the tests of [f] (by their text). *)
Definition outcome (f : func) (l : list (string * bool)) : oracle := fun c =>
  match find (fun p => match find_name (fst p) (f_conds f) 0 with
                       | Some j => Pos.eqb c (number j) | None => false end) l with
  | Some p => Some (snd p)
  | None => None
  end.

Definition where_is (l : label) : list (func * func * nat) :=
  flat_map (fun mf : func * list func =>
    flat_map (fun f =>
      flat_map (fun k => if label_eqb (label_of f k) l then [(fst mf, f, k)] else []) (names_of f))
      (filter (fun f => String.eqb (f_name f) (snd (fst l))) (snd mf)))
    (filter (fun mf : func * list func => String.eqb (f_file (fst mf)) (fst (fst l))) package).

Definition known_test (f : func) (p : string * bool) : bool :=
  match find_name (fst p) (f_conds f) 0 with Some _ => true | None => false end.

Definition excuse_ok (e : label * cases) : bool :=
  match where_is (fst e) with
  | [(m, f, k)] =>
      forallb (fun c => forallb (known_test f) c &&
                        negb (may_unbound (outcome f c) (number k) (f_body f) (entry_states m f k))) (snd e)
  | _ => false
  end.

Lemma where_is_spec : forall l m f k, In (m, f, k) (where_is l) ->
  in_package m f /\ label_of f k = l /\ (k < List.length (f_names f))%nat.
Proof.
  intros l m f k H. unfold where_is in H. apply in_flat_map in H. destruct H as ((m', fs) & P & H).
  apply filter_In in P. destruct P as [P _]. cbn [fst snd] in H.
  apply in_flat_map in H. destruct H as (f' & F & H). apply filter_In in F. destruct F as [F _].
  apply in_flat_map in H. destruct H as (k' & K & H).
  destruct (label_eqb (label_of f' k') l) eqn:E; [|contradiction].
  destruct H as [H|[]]. injection H; intros; subst. apply label_eqb_eq in E. apply in_seq in K.
  repeat split; [exists fs; split; [exact P|now right]|exact E|lia].
Qed.

Lemma excused_checked : forallb excuse_ok excused = true.
Proof. vm_cast_no_check (eq_refl true). Qed.

(** Each excused entry is one name of one function, and in each of its cases
    no execution reads the name while it is unbound. *)
Theorem C168_excused : forall l cs, In (l, cs) excused ->
  exists m f k, where_is l = [(m, f, k)] /\ in_package m f /\ label_of f k = l /\
    forall c b b2, In c cs -> entry m f k b ->
      (forall t o, In (t, o) c -> In t (f_conds f)) /\
      ~ run (outcome f c) (number k) (f_body f) b Unbound b2.
Proof.
  intros l cs H. pose proof excused_checked as C. rewrite forallb_forall in C. specialize (C _ H).
  unfold excuse_ok in C. cbn [fst snd] in C.
  destruct (where_is l) as [|[[m f] k] [|? ?]] eqn:W; try discriminate.
  exists m, f, k. assert (I : In (m, f, k) (where_is l)) by (rewrite W; now left).
  apply where_is_spec in I. destruct I as (P & L & K). repeat split; try assumption.
  - intros t o T. rewrite forallb_forall in C. specialize (C _ H0). apply andb_true_iff in C. destruct C as [C _].
    rewrite forallb_forall in C. specialize (C _ T). unfold known_test in C. cbn [fst] in C.
    pose proof (find_name_spec t (f_conds f) 0) as FS. destruct (find_name t (f_conds f) 0); [|discriminate].
    destruct FS as (d & _ & FS). eapply nth_error_In; exact FS.
  - intros R. rewrite forallb_forall in C. specialize (C _ H0). apply andb_true_iff in C. destruct C as [_ C].
    apply negb_true_iff in C. rewrite <- not_true_iff_false in C. apply C.
    apply may_unbound_exact. exists b, b2. split; [|exact R].
    destruct (in_package_checked m f P) as [N _]. now apply entry_states_exact.
Qed.
Print Assumptions C168_excused.

(** ** Calls that always fail *)

(** Whatever else happens, a call in which the tests come out as listed does
    not complete, and some such call ends by reading the unbound name. *)
Definition always_fails (m f : func) (k : nat) (c : list (string * bool)) : Prop :=
  (forall t o, In (t, o) c -> In t (f_conds f)) /\
  (forall b o b2, entry m f k b -> run (outcome f c) (number k) (f_body f) b o b2 -> o = Exn \/ o = Unbound) /\
  (exists b b2, entry m f k b /\ run (outcome f c) (number k) (f_body f) b Unbound b2).

Definition empty (p : states) : bool := negb (fst p) && negb (snd p).
Definition crash_ok (e : label * list (string * bool)) : bool :=
  match where_is (fst e) with
  | [(m, f, k)] =>
      let r := post (outcome f (snd e)) (number k) (f_body f) (entry_states m f k) in
      forallb (known_test f) (snd e) &&
      (empty (oN r) && empty (oR r) && empty (oB r) && empty (oC r)) && negb (empty (oU r))
  | _ => false
  end.

Lemma crashing_checked : forallb crash_ok crashing = true.
Proof. vm_cast_no_check (eq_refl true). Qed.

Lemma empty_has : forall p b, empty p = true -> has p b = true -> False.
Proof. intros [u v] [|]; destruct u, v; cbn; discriminate. Qed.

Lemma crashing_fails : forall l c, In (l, c) crashing ->
  exists m f k, where_is l = [(m, f, k)] /\ in_package m f /\ label_of f k = l /\ always_fails m f k c.
Proof.
  intros l c H. pose proof crashing_checked as C. rewrite forallb_forall in C. specialize (C _ H).
  unfold crash_ok in C. cbn [fst snd] in C.
  destruct (where_is l) as [|[[m f] k] [|? ?]] eqn:W; try discriminate.
  exists m, f, k. assert (I : In (m, f, k) (where_is l)) by (rewrite W; now left).
  apply where_is_spec in I. destruct I as (P & L & K).
  destruct (in_package_checked m f P) as [N _].
  set (r := post (outcome f c) (number k) (f_body f) (entry_states m f k)) in *.
  rewrite !andb_true_iff in C. destruct C as [[T [[[CN CR] CB] CC]] CU].
  repeat split; try assumption.
  - intros t o I. rewrite forallb_forall in T. specialize (T _ I). unfold known_test in T. cbn [fst] in T.
    pose proof (find_name_spec t (f_conds f) 0) as FS. destruct (find_name t (f_conds f) 0); [|discriminate].
    destruct FS as (d & _ & FS). eapply nth_error_In; exact FS.
  - intros b o b2 E R.
    assert (G : has (get r o) b2 = true).
    { apply post_exact. exists b. split; [now apply entry_states_exact|exact R]. }
    destruct o; cbn [get] in G; auto; exfalso; (eapply empty_has; [|exact G]; assumption).
  - assert (E : exists b2, has (get r Unbound) b2 = true).
    { cbn [get]. apply negb_true_iff in CU. destruct (oU r) as [[|] v]; [exists false; reflexivity|].
      destruct v; [exists true; reflexivity|discriminate]. }
    destruct E as (b2 & E). apply post_exact in E. destruct E as (b & E & R).
    exists b, b2. split; [now apply entry_states_exact|exact R].
Qed.

(** Loading all result sets of a run (documented meaning of [set_numbers=None])
    never works: the list of result sets is only made when numbers are given. *)
Theorem C168_load_all_refuted :
  exists m f k, in_package m f /\
    label_of f k = ("utility_functions.py", "load_results_by_name", "_sn_sdirs") /\
    always_fails m f k [("set_numbers is not None", false)].
Proof.
  destruct (crashing_fails ("utility_functions.py", "load_results_by_name", "_sn_sdirs")
    [("set_numbers is not None", false)]) as (m & f & k & _ & P & L & A); [cbn; tauto|].
  exists m, f, k. auto.
Qed.
Print Assumptions C168_load_all_refuted.

(** A boundary condition series as long as the simulation is refused by
    accident: the series returned is only made when the durations differ. *)
Theorem C168_equal_duration_refuted :
  exists m f k, in_package m f /\
    label_of f k = ("utility_functions.py", "make_boundarycond_timeseries", "bc_ts") /\
    always_fails m f k [("bc_duration != ts_timedelta", false)].
Proof.
  destruct (crashing_fails ("utility_functions.py", "make_boundarycond_timeseries", "bc_ts")
    [("bc_duration != ts_timedelta", false)]) as (m & f & k & _ & P & L & A); [cbn; tauto|].
  exists m, f, k. auto.
Qed.
Print Assumptions C168_equal_duration_refuted.

(** Importing all tables of a database at a path of one's own never works. *)
Theorem C168_own_database_refuted :
  exists m f k, in_package m f /\
    label_of f k = ("utility_functions.py", "database_import", "pth") /\
    always_fails m f k [("standard_db", false); ("not path", false); ("which == 'all'", true)].
Proof.
  destruct (crashing_fails ("utility_functions.py", "database_import", "pth")
    [("standard_db", false); ("not path", false); ("which == 'all'", true)])
    as (m & f & k & _ & P & L & A); [cbn; tauto|].
  exists m, f, k. auto.
Qed.
Print Assumptions C168_own_database_refuted.

(** A filled contour plot without normalisation never works. *)
Theorem C168_contour_refuted :
  exists m f k, in_package m f /\
    label_of f k = ("_utility/plotting.py", "prediction_realization_2d_kde", "cont_kwds") /\
    always_fails m f k [("norm and norm != 'log'", false); ("norm == 'log'", false); ("not contour", false)].
Proof.
  destruct (crashing_fails ("_utility/plotting.py", "prediction_realization_2d_kde", "cont_kwds")
    [("norm and norm != 'log'", false); ("norm == 'log'", false); ("not contour", false)])
    as (m & f & k & _ & P & L & A); [cbn; tauto|].
  exists m, f, k. auto.
Qed.
Print Assumptions C168_contour_refuted.

(** The vectorised root finder never works when a derivative is given. *)
Theorem C168_newton_derivative_refuted :
  exists m f k, in_package m f /\
    label_of f k = ("precomp_funs.py", "root_array_newton_fast", "q1") /\
    always_fails m f k [("fprime is not None", true)].
Proof.
  destruct (crashing_fails ("precomp_funs.py", "root_array_newton_fast", "q1")
    [("fprime is not None", true)]) as (m & f & k & _ & P & L & A); [cbn; tauto|].
  exists m, f, k. auto.
Qed.
Print Assumptions C168_newton_derivative_refuted.
