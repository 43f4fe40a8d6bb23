(** * C173: functions leave the objects given to them as they are *)
From Coq Require Import List Bool String PArith Arith Lia.
From Verif Require Import MReturn MShared MAlias LAlias MSrcAlias PReturn.
Import ListNotations.
Local Open Scope string_scope.

(** File, function and parameter.  Arguments that are meant to be filled or changed: *)
Definition outputs : list (string * string * string) := [
  ("_utility/plotting.py", "heatmap_from_df", "ax");
  ("parts/chp_plant.py", "CHPPlant.__deprecated_special_free_memory", "disk_store");
  ("parts/chp_plant.py", "CHPPlant._special_free_memory", "disk_store");
  ("parts/chp_plant.py", "CHPPlant._special_return_store", "dfs");
  ("parts/controllers.py", "ModelPredCHP._special_store_to_disk", "store");
  ("parts/controllers.py", "ModelPredCHP._longterm_clip_array", "x");
  ("parts/heated_pipe.py", "HeatedPipe.__depcreated_special_free_memory", "disk_store");
  ("parts/heated_pipe.py", "HeatedPipe._special_free_memory", "disk_store");
  ("parts/heated_pipe.py", "HeatedPipe._special_return_store", "dfs");
  ("parts/part_modules/consumers.py", "lowex_phwrc", "calculations_df");
  ("parts/part_modules/consumers.py", "speicherladesys", "calculations_df");
  ("parts/part_modules/consumers.py", "space_heating", "calculations_df");
  ("parts/part_modules/suppliers.py", "chp_with_fghex", "calculations_df");
  ("parts/part_modules/suppliers.py", "gasboiler", "calculations_df");
  ("simenv.py", "SimEnv.__adaptive_step_control", "_solver_state");
  ("simenv.py", "SimEnv.__adaptive_step_control", "_failed_steps");
  ("simenv.py", "SimEnv.__adaptive_step_control", "ports_all");
  ("utility_functions.py", "NetPlotter.plot_errors", "simenv")].
(** Arguments that are inputs only: *)
Definition altered : list (string * string * string) := [
  ("_utility/plotting.py", "heatmap_from_df", "plt_kwds");
  ("_utility/plotting.py", "heatmap_from_df", "cbar_kwds");
  ("parts/controllers.py", "ModelPredCHP._minimizer_input", "x");
  ("parts/part_modules/chp_with_fluegas_hex.py", "add_chp_with_fghex", "chp_kwds");
  ("parts/part_modules/suppliers.py", "chp_with_fghex", "chp_kwds");
  ("utility_functions.py", "remove_outliers_std", "data");
  ("utility_functions.py", "remove_outliers_mad", "data")].

Definition entry (f : func) (k : nat) : string * string * string := (f_file f, f_name f, nth k (f_params f) "").
Definition same (a b : string * string * string) : bool :=
  (fst (fst a) =? fst (fst b)) && (snd (fst a) =? snd (fst b)) && (snd a =? snd b).
Lemma same_iff : forall a b, same a b = true <-> a = b.
Proof.
  intros [[a1 a2] a3] [[b1 b2] b3]. unfold same. cbn. rewrite !andb_true_iff, !String.eqb_eq. split; [intros [[-> ->] ->]; reflexivity|].
  intros E. injection E as -> -> ->. auto.
Qed.
Definition isin (a : string * string * string) (l : list (string * string * string)) : bool := existsb (same a) l.
Lemma isin_iff : forall a l, isin a l = true <-> In a l.
Proof.
  intros a l. unfold isin. rewrite existsb_exists. split; [intros (b & I & E); apply same_iff in E; now subst|].
  intros I. exists a. split; [exact I|]. now apply same_iff.
Qed.

Definition params (f : func) : list nat := seq 0 (List.length (f_params f)).
Definition as_listed : bool :=
  forallb (fun f => forallb (fun k => searched f k && Bool.eqb (may_change f k) (isin (entry f k) (outputs ++ altered))) (params f)) functions.
Lemma as_listed_true : as_listed = true.
Proof. vm_compute. reflexivity. Qed.

(** Exactly the arguments listed can be changed, for every function and argument and every execution. *)
Theorem C173_exact : forall f k, In f functions -> k < List.length (f_params f) ->
  (changes f k <-> In (entry f k) (outputs ++ altered)).
Proof.
  intros f k I L. pose proof as_listed_true as A. unfold as_listed in A. rewrite forallb_forall in A. specialize (A f I).
  rewrite forallb_forall in A. assert (K : In k (params f)) by (apply in_seq; cbn; lia). specialize (A k K).
  apply andb_true_iff in A. destruct A as [S E]. apply Bool.eqb_prop in E. rewrite (changes_iff f k S L), E. apply isin_iff.
Qed.
Print Assumptions C173_exact.

(** Every entry stands for an argument of a function. *)
Theorem C173_listed : forall e, In e (outputs ++ altered) -> exists f k, In f functions /\ k < List.length (f_params f) /\ entry f k = e.
Proof.
  assert (A : forallb (fun e => existsb (fun f => existsb (fun k => same (entry f k) e) (params f)) functions) (outputs ++ altered) = true)
    by (vm_compute; reflexivity).
  intros e I. rewrite forallb_forall in A. specialize (A e I). apply existsb_exists in A. destruct A as (f & F & A).
  apply existsb_exists in A. destruct A as (k & K & S). apply same_iff in S. exists f, k. apply in_seq in K. split; [exact F|].
  split; [lia|exact S].
Qed.
Print Assumptions C173_listed.

(** Whatever is done in which order: the environment, parts, meters and statistics leave every argument as it is. *)
Theorem C173_unchanged : forall f k, In f functions -> k < List.length (f_params f) ->
  In (f_file f) ["flownet.py"; "controls.py"; "_utility/meters.py"; "_utility/stat_error_measures.py"; "parts/pipe.py"; "parts/tes.py";
                 "parts/pump.py"; "parts/mixingvalve.py"; "parts/connector_3w.py"; "parts/hex_num.py"; "parts/heatexchanger.py";
                 "parts/hex_condensing_polynome.py"; "parts/pipe_with_pump.py"; "parts/pipe_with_valve.py"; "parts/pipe_branched.py"] ->
  ~ changes f k.
Proof.
  intros f k I L FI C. apply (C173_exact f k I L) in C. unfold entry in C. revert FI C. generalize (f_file f) as a, (f_name f) as b, (nth k (f_params f) "") as c.
  intros a b c FI C. cbn in C. cbn in FI.
  repeat (destruct C as [C|C]; [injection C as <- _ _; repeat (destruct FI as [FI|FI]; [discriminate FI|]); exact FI|]). exact C.
Qed.
Print Assumptions C173_unchanged.

(** 287 functions with 957 arguments, 25 of which can be changed. *)
Example C173_size : List.length functions = 287 /\ List.length (flat_map params functions) = 957 /\
  List.length (outputs ++ altered) = 25.
Proof. vm_compute. auto. Qed.

(** ** The inputs that are changed *)
Theorem C173_altered_refuted : forall e, In e altered -> exists f k, In f functions /\ entry f k = e /\ changes f k.
Proof.
  intros e I. destruct (C173_listed e) as (f & k & F & L & E); [apply in_or_app; now right|]. exists f, k. split; [exact F|]. split; [exact E|].
  apply (C173_exact f k F L). rewrite E. apply in_or_app. now right.
Qed.
Print Assumptions C173_altered_refuted.

(** After a heat map with logarithmic colours, all later ones that leave [plt_kwds] out are logarithmic, too;
    after one with extended colours, the colour bar of all later ones is extended. *)
Lemma heat_log_kept : forall c s, find "norm" (fst s) = Some "LogNorm" -> find "norm" (fst (snd (heat c s))) = Some "LogNorm".
Proof.
  intros [p q l o u] [a b] H. cbn in *. destruct p as [p|]; [exact H|]. unfold heat_plt. cbn. destruct l; [|exact H].
  rewrite find_put. reflexivity.
Qed.
Theorem C173_heatmap_refuted : forall cs cs2 c s, h_plt c = None -> h_log c = true ->
  forall c2, h_plt c2 = None -> h_log c2 = false ->
  forall d, nth_error (heats (cs ++ c :: cs2 ++ [c2]) s) (List.length cs + S (List.length cs2)) = Some d ->
  find "norm" (fst d) = Some "LogNorm".
Proof.
  intros cs cs2 c s P G c2 P2 G2. revert s. induction cs as [|b cs IH]; intros s d D.
  - cbn [app List.length Nat.add heats nth_error] in D.
    assert (K : find "norm" (fst (snd (heat c s))) = Some "LogNorm").
    { unfold heat, heat_plt. rewrite P, G. cbn [fst snd]. rewrite find_put. reflexivity. }
    revert D K. generalize (snd (heat c s)) as t. induction cs2 as [|b cs2 IH]; intros t D K.
    + cbn [app List.length heats nth_error] in D. injection D as <-. unfold heat, heat_plt. rewrite P2, G2. exact K.
    + cbn [app List.length heats nth_error] in D. apply (IH _ D). now apply heat_log_kept.
  - cbn [app List.length Nat.add heats nth_error] in D. apply (IH _ _ D).
Qed.
Print Assumptions C173_heatmap_refuted.
(** The same for the colour bar: an extension asked for once stays for all later maps that ask for none. *)
Definition extension (c : heat_call) : option string :=
  match h_over c, h_under c with true, true => Some "both" | true, false => Some "max" | false, true => Some "min" | false, false => None end.
Lemma heat_extended : forall c s e, h_cbar c = None -> extension c = Some e ->
  find "extend" (snd (fst (heat c s))) = Some e /\ find "extend" (snd (snd (heat c s))) = Some e.
Proof.
  intros [p q l o u] [a b] e Q E. cbn in Q. subst q. unfold extension in E. cbn in E. unfold heat, heat_cbar. cbn [h_cbar h_over h_under fst snd].
  destruct o, u; try discriminate; injection E as <-; rewrite !find_put; auto.
Qed.
Theorem C173_colorbar_refuted : forall cs cs2 c s e, h_cbar c = None -> extension c = Some e ->
  Forall (fun d => h_cbar d <> None \/ extension d = None) cs2 ->
  forall c2, h_cbar c2 = None -> extension c2 = None ->
  forall d, nth_error (heats (cs ++ c :: cs2 ++ [c2]) s) (List.length cs + S (List.length cs2)) = Some d ->
  find "extend" (snd d) = Some e.
Proof.
  intros cs cs2 c s e P G F c2 P2 G2. revert s. induction cs as [|b cs IH]; intros s d D.
  - cbn [app List.length Nat.add heats nth_error] in D.
    destruct (heat_extended c s e P G) as [_ K]. revert D K. generalize (snd (heat c s)) as t.
    induction F as [|b cs2 B F IH]; intros t D K.
    + cbn [app List.length heats nth_error] in D. injection D as <-. unfold heat, heat_cbar. rewrite P2. cbn [fst snd].
      unfold extension in G2. destruct (h_over c2), (h_under c2); try discriminate. exact K.
    + cbn [app List.length heats nth_error] in D. apply (IH _ D). unfold heat. cbn [snd].
      destruct (h_cbar b); [exact K|]. destruct B as [B|B]; [congruence|]. unfold heat_cbar. unfold extension in B.
      destruct (h_over b), (h_under b); try discriminate. exact K.
  - cbn [app List.length Nat.add heats nth_error] in D. apply (IH _ _ D).
Qed.
Print Assumptions C173_colorbar_refuted.
Example C173_three_bars :
  map (fun d => find "extend" (snd d))
    (heats [mkHeat None None false false true; mkHeat None (Some []) false false false; mkHeat None None false false false] ([], [])) =
  [Some "min"; None; Some "min"].
Proof. reflexivity. Qed.
(** Two maps, the first logarithmic. *)
Example C173_two_maps :
  map (fun d => find "norm" (fst d))
    (heats [mkHeat None None false false false; mkHeat None None true false false; mkHeat None None false false false] ([], [])) =
  [None; Some "LogNorm"; Some "LogNorm"].
Proof. reflexivity. Qed.
(** Given dictionaries make calls independent of the calls before. *)
Theorem C173_heatmap_given : forall c s s' p q, h_plt c = Some p -> h_cbar c = Some q -> fst (heat c s) = fst (heat c s').
Proof. intros c s s' p q P Q. unfold heat. rewrite P, Q. reflexivity. Qed.
Print Assumptions C173_heatmap_given.

(** Plants added with the same dictionary: only the first one gets the pipe asked for. *)
Lemma find_drop : forall n d, find n (drop n d) = None.
Proof.
  intros n d. induction d as [|[m v] d IH]; [reflexivity|]. cbn. destruct (String.eqb_spec m n) as [->|N]; cbn; [exact IH|].
  destruct (String.eqb_spec m n); [contradiction|exact IH].
Qed.
Theorem C173_pipes_refuted : forall n kwds p, find "pipe_specs" kwds = Some p ->
  chp_pipes (S n) kwds = p :: repeat "DN80" n.
Proof.
  intros n kwds p H. cbn [chp_pipes]. unfold chp_pipe at 1. rewrite H. cbn [fst]. f_equal.
  assert (G : find "pipe_specs" (snd (chp_pipe kwds)) = None) by (unfold chp_pipe; rewrite H; apply find_drop).
  revert G. generalize (snd (chp_pipe kwds)) as d. induction n as [|n IH]; intros d G; [reflexivity|].
  cbn [chp_pipes repeat]. unfold chp_pipe. rewrite G. cbn [fst snd]. f_equal. apply IH, G.
Qed.
Print Assumptions C173_pipes_refuted.
(** [add_chp_with_fghex] can be called once only with a dictionary, its default values included. *)
Theorem C173_second_refuted : (forall kwds p k, chp_pipe_old kwds = Some (p, k) -> chp_pipe_old k = None) /\
  exists k, chp_pipe_old chp_default = Some ("DN80", k) /\ chp_pipe_old k = None.
Proof.
  split.
  - intros kwds p k. unfold chp_pipe_old at 1. destruct (find "pipe_specs" kwds); [|discriminate]. intros E. injection E as <- <-.
    unfold chp_pipe_old. now rewrite find_drop.
  - eexists. split; reflexivity.
Qed.
Print Assumptions C173_second_refuted.
