(** C160, C161: the predefined assemblies are complete and pass water on as their purpose demands. *)
From Coq Require Import List String Ascii Arith ZArith Bool Lia Permutation Reals Lra.
From Verif Require Import MNet SNet MTopo STopo LTopo5 PTopo MPorts MModules LModules.
Import ListNotations.
Open Scope list_scope.

(** * C160: completeness *)

(** A plant: other parts with the ports [base], connected by [bconns] among each other and by the connectors to the
    modules [pls]; every such port is used once.  No name is used twice. *)
Definition name_free (pls : list placed) (x : pkey) : Prop :=
  match x with
  | Port n _ => ~ In n (flat_map (fun p => part_names (pl_m p) (pl_seg p)) pls)
  | BC n => ~ In n (flat_map (fun p => open_names (pl_m p) (pl_seg p)) pls)
  end.
Record proper_plant (base : list pkey) (bconns : list (pkey * pkey)) (pls : list placed) : Prop := {
  pp_library : forall p, In p pls -> In (pl_m p) library /\ List.length (pl_ext p) = arity (pl_m p);
  pp_names : accepted_names pls;
  pp_base : NoDup base;
  pp_free : forall x, In x base -> name_free pls x;
  pp_used : Permutation (flat_map (fun c => [fst c; snd c]) bconns ++ flat_map pl_ext pls) base }.

Definition own_ends (m : module) : list endp :=
  flat_map (fun p => map (Own (p_pre p)) (ports_of (p_cls p))) (m_parts m) ++ map Open (m_open m).
Definition nodup_strings (l : list string) : bool := if list_eq_dec string_dec (nodup string_dec l) l then true else false.
Lemma nodup_strings_ok l : nodup_strings l = true -> NoDup l.
Proof.
  unfold nodup_strings. destruct (list_eq_dec string_dec (nodup string_dec l) l) as [E|]; [|discriminate].
  intros _. rewrite <- E. apply NoDup_nodup.
Qed.
Lemma library_complete : forall m, In m library ->
  Permutation (ends (m_conns m)) (own_ends m ++ map Given (seq 0 (arity m)))
  /\ Forall (fun p => NoDup (ports_of (p_cls p))) (m_parts m).
Proof.
  assert (H : forallb (fun m => permb endp_eq (ends (m_conns m)) (own_ends m ++ map Given (seq 0 (arity m)))
             && forallb (fun p => nodup_strings (ports_of (p_cls p))) (m_parts m))%bool library = true)
    by (vm_compute; reflexivity).
  rewrite forallb_forall in H. intros m Hm. specialize (H m Hm). apply andb_prop in H. destruct H as [H1 H2].
  split; [now apply permb_ok in H1|]. rewrite forallb_forall in H2. apply Forall_forall. intros p Hp.
  apply nodup_strings_ok. now apply H2.
Qed.

Lemma conns_use m seg ext : In m library -> List.length ext = arity m ->
  Permutation (ends (conns m seg ext)) (own_ports m seg ++ ext).
Proof.
  intros Hm Hl. destruct (library_complete m Hm) as [P _]. unfold conns.
  rewrite (ends_map (end_of seg ext)). rewrite (Permutation_map (end_of seg ext) P). rewrite map_app.
  apply Permutation_app.
  - unfold own_ends, own_ports, open_names. rewrite map_app. apply Permutation_app.
    + rewrite map_flat. apply flat_map_perm. intros p _. rewrite map_map. apply Permutation_refl.
    + rewrite !map_map. apply Permutation_refl.
  - rewrite map_map. cbn [end_of]. rewrite <- Hl, map_nth_all. apply Permutation_refl.
Qed.

Lemma plant_nodup base bconns pls : proper_plant base bconns pls -> NoDup (plant_ports base pls).
Proof.
  intros [L (N1 & N2 & _) B F _]. unfold plant_ports.
  set (parts := flat_map (fun p => map (fun c => ((p_pre c ++ pl_seg p)%string, ports_of (p_cls c))) (m_parts (pl_m p))) pls).
  set (opens := flat_map (fun p => open_names (pl_m p) (pl_seg p)) pls).
  assert (P : Permutation (flat_map (fun p => own_ports (pl_m p) (pl_seg p)) pls)
                (flat_map (fun x => map (Port (fst x)) (snd x)) parts ++ map BC opens)).
  { unfold own_ports. rewrite (flat_map_split
      (fun p => flat_map (fun c => map (Port (p_pre c ++ pl_seg p)) (ports_of (p_cls c))) (m_parts (pl_m p)))
      (fun p => map BC (open_names (pl_m p) (pl_seg p)))).
    unfold parts, opens. rewrite flat_map_flat, map_flat. apply Permutation_app; [|apply Permutation_refl].
    apply flat_map_perm. intros p _. rewrite flat_map_map. apply Permutation_refl. }
  assert (Q : map fst parts = flat_map (fun p => part_names (pl_m p) (pl_seg p)) pls).
  { unfold parts, part_names. rewrite map_flat. clear. induction pls as [|p l IH]; cbn; [reflexivity|].
    now rewrite map_map, IH. }
  apply nodup_app; [assumption| |].
  - eapply Permutation_NoDup; [apply Permutation_sym; exact P|]. apply nodup_app.
    + apply ports_nodup; [rewrite Q; exact N1|]. apply Forall_forall. intros x Hx. unfold parts in Hx.
      apply in_flat_map in Hx. destruct Hx as (p & Hp & Hx). apply in_map_iff in Hx. destruct Hx as (c & <- & Hc).
      cbn [snd]. destruct (library_complete _ (proj1 (L p Hp))) as [_ G]. rewrite Forall_forall in G. now apply G.
    + apply FinFun.Injective_map_NoDup; [|exact N2]. intros a b E. now injection E.
    + intros x Hx Hy. apply in_flat_map in Hx. destruct Hx as (y & _ & Hx). apply in_map_iff in Hx.
      destruct Hx as (q & <- & _). apply in_map_iff in Hy. destruct Hy as (n & E & _). discriminate.
  - intros x Hx Hy. apply (Permutation_in x P) in Hy. apply F in Hx. apply in_app_or in Hy. destruct Hy as [Hy|Hy].
    + apply in_flat_map in Hy. destruct Hy as (y & Hy & J). apply in_map_iff in J. destruct J as (q & <- & _).
      apply Hx. rewrite <- Q. now apply in_map.
    + apply in_map_iff in Hy. destruct Hy as (n & <- & Hn). now apply Hx.
Qed.

(** C160: in every proper plant all connections of the modules and of the rest can be made, no port is left over and
    controls can be added. *)
Theorem C160_plant : forall base bconns pls, proper_plant base bconns pls ->
  exists s, init_connections (plant_ports base pls) (plant_conns bconns pls) = Some s
  /\ control_allowed (plant_ports base pls) s = true
  /\ (forall a b, In (a, b) (plant_conns bconns pls) -> link s a = Some b /\ link s b = Some a).
Proof.
  intros base bconns pls H. apply init_ok; [now apply (plant_nodup base bconns pls)|].
  destruct H as [L _ _ _ U]. unfold plant_conns, plant_ports. rewrite ends_app.
  assert (E : ends (flat_map (fun p => conns (pl_m p) (pl_seg p) (pl_ext p)) pls) =
              flat_map (fun p => ends (conns (pl_m p) (pl_seg p) (pl_ext p))) pls)
    by (unfold ends; now rewrite flat_map_flat).
  rewrite E.
  rewrite (flat_map_perm _ (fun p => own_ports (pl_m p) (pl_seg p) ++ pl_ext p))
    by (intros p Hp; destruct (L p Hp); now apply conns_use).
  rewrite (flat_map_split (fun p => own_ports (pl_m p) (pl_seg p)) pl_ext).
  rewrite (Permutation_app_comm (flat_map (fun p => own_ports (pl_m p) (pl_seg p)) pls)).
  rewrite app_assoc. apply Permutation_app_tail. exact U.
Qed.
Print Assumptions C160_plant.

(** Modules of one plant whose segment names differ and contain no underscore never use the same name, nor does one
    module use a name twice. *)
Theorem C160_names : forall m1 m2 s1 s2, In m1 library -> In m2 library ->
  has "_" s1 = false -> has "_" s2 = false -> s1 <> s2 ->
  (forall n, In n (part_names m1 s1) -> ~ In n (part_names m2 s2)) /\
  (forall n, In n (open_names m1 s1) -> ~ In n (open_names m2 s2)) /\
  (forall n, In n (ctrl_names m1 s1) -> ~ In n (ctrl_names m2 s2)).
Proof.
  intros m1 m2 s1 s2 H1 H2 U1 U2 D.
  assert (G : forall (f : module -> list string), forallb (fun m => forallb (fun k => forallb (fun p =>
            forallb (fun q => apart p q) (f k)) (f m)) library) library = true ->
            forall n, In n (map (fun p => (p ++ s1)%string) (f m1)) -> ~ In n (map (fun p => (p ++ s2)%string) (f m2))).
  { intros f G n I J. rewrite forallb_forall in G. specialize (G m1 H1). rewrite forallb_forall in G.
    specialize (G m2 H2). rewrite forallb_forall in G.
    apply in_map_iff in I. destruct I as (p & <- & I). apply in_map_iff in J. destruct J as (q & E & J).
    specialize (G p I). rewrite forallb_forall in G. specialize (G q J). apply D. symmetry in E.
    now apply (apart_ok p q s1 s2). }
  split; [|split].
  - specialize (G (fun m => map p_pre (m_parts m))). cbn beta in G. rewrite !map_map in G. apply G. vm_compute. reflexivity.
  - apply (G m_open). vm_compute. reflexivity.
  - specialize (G (fun m => map c_pre (m_ctrls m))). cbn beta in G. rewrite !map_map in G. apply G. vm_compute. reflexivity.
Qed.
Print Assumptions C160_names.
Theorem C160_distinct : forall m s, In m library ->
  NoDup (part_names m s) /\ NoDup (open_names m s) /\ NoDup (ctrl_names m s).
Proof.
  intros m s Hm.
  assert (G : forallb (fun m => (nodup_strings (map p_pre (m_parts m)) && nodup_strings (m_open m)
              && nodup_strings (map c_pre (m_ctrls m)))%bool) library = true) by (vm_compute; reflexivity).
  rewrite forallb_forall in G. specialize (G m Hm). rewrite !andb_true_iff in G. destruct G as [[G1 G2] G3].
  assert (K : forall l : list string, NoDup l -> NoDup (map (fun p => (p ++ s)%string) l)).
  { intros l Hl. apply FinFun.Injective_map_NoDup; [|exact Hl]. intros a b E. now apply app_cancel in E. }
  apply nodup_strings_ok, K in G1. apply nodup_strings_ok, K in G2. apply nodup_strings_ok, K in G3.
  rewrite map_map in G1, G3. auto.
Qed.
Print Assumptions C160_distinct.

(** Names do clash when a segment name contains an underscore ... *)
Theorem C160_underscore_refuted : forall ext1 ext2,
  ~ accepted_names [{| pl_m := chp1; pl_seg := "1"; pl_ext := ext1 |}; {| pl_m := chp1; pl_seg := "lt_1"; pl_ext := ext2 |}].
Proof.
  intros e1 e2 [H _]. unfold fresh in H. apply (NoDup_count_occ string_dec) with (x := "p_chp_rf_lt_1"%string) in H.
  vm_compute in H. lia.
Qed.
Print Assumptions C160_underscore_refuted.
(** ... and when both hot water modules are used with the default segment name (or any other common one). *)
Theorem C160_default_refuted : forall seg ext1 ext2,
  ~ accepted_names [{| pl_m := lowex; pl_seg := seg; pl_ext := ext1 |}; {| pl_m := store_loading; pl_seg := seg; pl_ext := ext2 |}].
Proof.
  intros seg e1 e2 (_ & H & _). unfold fresh in H. cbn in H. inversion H as [|? ? N _]. apply N. cbn. tauto.
Qed.
Print Assumptions C160_default_refuted.

(** The arguments that refer to cells are accepted, every controller finds a free actuator, its sensor and its master,
    every part that needs a controller has one. *)
Theorem C160_arguments : forall m, In m library ->
  (forall p, In p (m_parts m) -> part_accepted p = true) /\
  controls_accepted m [] (m_ctrls m) = true /\
  (forall p, In p (m_parts m) -> p_req p = true ->
     List.length (filter (fun c => String.eqb (c_act c) (p_pre p)) (m_ctrls m)) = 1%nat) /\
  uncontrolled m = [].
Proof.
  intros m Hm.
  assert (G : forallb (fun m => (forallb part_accepted (m_parts m) && controls_accepted m [] (m_ctrls m)
     && forallb (fun p => implb (p_req p) (Nat.eqb (List.length (filter (fun c => String.eqb (c_act c) (p_pre p)) (m_ctrls m))) 1)) (m_parts m)
     && match uncontrolled m with [] => true | _ => false end)%bool) library = true) by (vm_compute; reflexivity).
  rewrite forallb_forall in G. specialize (G m Hm). rewrite !andb_true_iff in G. destruct G as [[[G1 G2] G3] G4].
  rewrite forallb_forall in G1, G3. split; [exact G1|]. split; [exact G2|]. split.
  - intros p Hp R. specialize (G3 p Hp). rewrite R in G3. now apply Nat.eqb_eq in G3.
  - now destruct (uncontrolled m).
Qed.
Print Assumptions C160_arguments.

(** What this means: results are stored for, and initial temperatures, valves and heated sections given for cells the
    part has; every sensor is at a cell of its part, counted from the front or, if negative, from the end; no actuator
    has two controllers. *)
Definition cell_of (n : nat) (i : Z) (k : nat) : Prop :=
  (k < n)%nat /\ (i = Z.of_nat k \/ i = Z.of_nat k - Z.of_nat n)%Z.
Theorem C160_cells : forall m, In m library ->
  (forall p n, In p (m_parts m) -> p_grid p = Some n ->
     (forall i, In i (p_store p) -> (i < n)%nat) /\ (forall k, p_init p = Some k -> k = n) /\
     (forall v, p_valve p = Some v -> (v < n)%nat) /\
     (forall a b, p_heated p = Some (a, b) -> (a < b <= n)%nat)) /\
  (forall c pre i, In c (m_ctrls m) -> c_sens c = At pre i ->
     exists p n k, find_part m pre = Some p /\ p_grid p = Some n /\ cell_of n i k /\ sensor_cell n i = Some k) /\
  NoDup (map c_act (m_ctrls m)).
Proof.
  intros m Hm. destruct (C160_arguments m Hm) as (P & C & _). split; [|split].
  - intros p n Hp G. specialize (P p Hp). unfold part_accepted in P. rewrite G in P.
    rewrite !andb_true_iff in P. destruct P as [[[S I] V] H]. repeat split.
    + intros i Hi. unfold below in S. rewrite forallb_forall in S. now apply Nat.ltb_lt, S.
    + intros k K. rewrite K in I. cbn in I. now apply Nat.eqb_eq.
    + intros v K. rewrite K in V. cbn in V. now apply Nat.ltb_lt.
    + rename H0 into K. rewrite K in H. cbn in H. apply andb_true_iff in H. now apply Nat.ltb_lt.
    + rename H0 into K. rewrite K in H. cbn in H. apply andb_true_iff in H. now apply Nat.leb_le.
  - assert (S : forall l done, controls_accepted m done l = true -> forall c, In c l -> sensor_accepted m (c_sens c) = true).
    { induction l as [|c l IH]; intros done A c' I; [destruct I|]. cbn in A. rewrite !andb_true_iff in A.
      destruct A as [[[_ A2] _] A4]. destruct I as [<-|I]; [exact A2|]. eapply IH; eassumption. }
    intros c pre i Hc E. pose proof (S _ _ C c Hc) as A. rewrite E in A. cbn in A.
    destruct (find_part m pre) as [p|]; [|discriminate]. destruct (p_grid p) as [n|] eqn:G; [|discriminate].
    destruct (sensor_cell n i) as [k|] eqn:K; [|discriminate]. exists p, n, k. repeat split; try assumption.
    + unfold sensor_cell in K.
      destruct ((0 <=? i) && (i <? Z.of_nat n))%Z%bool eqn:B1; [injection K as <-; lia|].
      destruct ((- Z.of_nat n <=? i) && (i <? 0))%Z%bool eqn:B2; [injection K as <-; lia|discriminate].
    + unfold sensor_cell in K.
      destruct ((0 <=? i) && (i <? Z.of_nat n))%Z%bool eqn:B1; [injection K as <-; lia|].
      destruct ((- Z.of_nat n <=? i) && (i <? 0))%Z%bool eqn:B2; [injection K as <-; lia|discriminate].
  - assert (S : forall l done, controls_accepted m done l = true ->
      NoDup (map c_act l) /\ forall c d, In c l -> In d done -> c_act d <> c_act c).
    { induction l as [|c l IH]; intros done A; [split; [constructor|intros ? ? []]|]. cbn in A.
      rewrite !andb_true_iff in A. destruct A as [[[A1 _] _] A4]. apply IH in A4. destruct A4 as [N D]. split.
      - cbn. constructor; [|exact N]. intro I. apply in_map_iff in I. destruct I as (c' & E & I).
        apply (D c' c I); [apply in_or_app; right; now left|]. congruence.
      - intros c' d [<-|I] J; [|apply D; [exact I|apply in_or_app; now left]].
        destruct (find_part m (c_act c)); [|discriminate]. rewrite !andb_true_iff in A1. destruct A1 as [[_ A1] _].
        apply negb_true_iff in A1. intro E. rewrite <- not_true_iff_false in A1. apply A1. apply existsb_exists.
        exists d. split; [exact J|]. apply String.eqb_eq. exact E. }
    apply (S _ _ C).
Qed.
Print Assumptions C160_cells.

(** Mode 'el' of the CHP module is accepted but leaves the plant without a controller; the simulation does not
    start. *)
Theorem C160_electric_refuted : forall m, In m [chp3; chp2; chp1; chp0] -> uncontrolled (in_mode El m) = ["CHP"%string].
Proof. intros m H. cbn in H. destruct H as [<-|[<-|[<-|[<-|[]]]]]; vm_compute; reflexivity. Qed.
Print Assumptions C160_electric_refuted.

(** A storage with a CHP module, a boiler and a heating circuit. *)
Definition tes (q : string) : pkey := Port "tes" q.
Definition house : list placed :=
  [{| pl_m := chp3; pl_seg := "1"; pl_ext := [tes "c1"; tes "c2"; tes "c3"; tes "c4"] |};
   {| pl_m := boiler; pl_seg := "1"; pl_ext := [tes "b1"; tes "b2"] |};
   {| pl_m := heating; pl_seg := "1"; pl_ext := [tes "h1"; tes "h2"] |};
   {| pl_m := heating; pl_seg := "2"; pl_ext := [tes "in"; tes "out"] |}]%string.
Definition house_ports : list pkey := map tes ["in"; "c1"; "c2"; "c3"; "c4"; "b1"; "b2"; "h1"; "h2"; "out"]%string.
Example C160_example : proper_plant house_ports [] house /\ List.length (plant_ports house_ports house) = 72%nat.
Proof.
  split; [|vm_compute; reflexivity]. constructor.
  - intros p H. cbn in H. destruct H as [<-|[<-|[<-|[<-|[]]]]]; cbn; tauto.
  - split; [|split]; apply nodup_strings_ok; vm_compute; reflexivity.
  - apply FinFun.Injective_map_NoDup; [|apply nodup_strings_ok; vm_compute; reflexivity].
    intros a b E. now injection E.
  - intros x H. assert (exists q, x = tes q) as [q ->].
    { unfold house_ports in H. apply in_map_iff in H. destruct H as (q & <- & _). eauto. }
    cbn [name_free tes]. intro I.
    assert (E : existsb (String.eqb "tes") (flat_map (fun p => part_names (pl_m p) (pl_seg p)) house) = false)
      by (vm_compute; reflexivity).
    rewrite <- not_true_iff_false in E. apply E. apply existsb_exists. exists "tes"%string. split; [exact I|reflexivity].
  - apply (permb_ok pkey_eq). vm_compute. reflexivity.
Qed.

(** * C161: water through the modules *)

(** The module connected to a storage with one port per connector. *)
Definition net_of (m : module) : design := built (kinds m) (pairs m) (driven m).
Definition order (m : module) : list nat := seq 0 (S (List.length (m_parts m))).
(** Port of the network for a port name of the module. *)
Definition at_ (m : module) (pre q : string) : port := nth 0 (port_of m (Own pre q)) (0, 0)%nat.
(** Cells with the flow of a pump and the opening of the two branches of a valve. *)
Definition pump_cell (m : module) (pre : string) : addr := dcell (net_of m) (fst (at_ m pre "in")).
Definition branch_A (m : module) (pre : string) : addr := fcell (net_of m) (fst (at_ m pre "A")).
Definition branch_B (m : module) (pre : string) : addr := S (branch_A m pre).
(** Half open valves: both branches open, openings add up to one. *)
Definition opening (m : module) (pre : string) (w : MNet.mem) (a : R) : Prop :=
  (w (branch_A m pre) = a /\ w (branch_B m pre) = 1 - a /\ 0 < a < 1)%R.

Lemma library_built m : In m library -> buildable (net_of m).
Proof.
  assert (G : forallb (fun m => (forallb small (kinds m) && forallb (port_ok (kinds m)) (map fst (both (pairs m)))
              && nodupb (map fst (both (pairs m))))%bool) library = true) by (vm_compute; reflexivity).
  rewrite forallb_forall in G. intro Hm. specialize (G m Hm). rewrite !andb_true_iff in G. destruct G as [[G1 G2] G3].
  now apply built_ok.
Qed.
Lemma order_inside m : inside (net_of m) (order m).
Proof.
  apply Forall_forall. intros p Hp. unfold order in Hp. apply in_seq in Hp. unfold net_of, built, kinds. cbn [nparts].
  cbn [List.length]. rewrite map_length. lia.
Qed.

(** Every module forms a flow network that can be solved. *)
Theorem C161_solvable : forall m, In m library -> exists st, topology (net_of m) (order m) = Done st.
Proof.
  intros m Hm. apply accepts_done.
  assert (G : forallb (fun m => accepts (net_of m) (order m)) library = true) by (vm_compute; reflexivity).
  rewrite forallb_forall in G. now apply G.
Qed.
Print Assumptions C161_solvable.

Lemma flows_of m w phi : In m library -> consistent (net_of m) w phi -> branches_open (net_of m) w ->
  exists st w', topology (net_of m) (order m) = Done st /\ run_net (out st) w = Some w' /\
    forall x, valid (net_of m) x -> (forall n, kd (net_of m) (fst x) <> KHub true n) -> flow (net_of m) st w' x = phi x.
Proof.
  intros Hm C O. destruct (C161_solvable m Hm) as [st T].
  destruct (C82_physical (net_of m) (order m) st w phi (library_built m Hm) (order_inside m) T C O) as (w' & R & _ & H & _).
  exists st, w'. auto.
Qed.

Ltac walk p K Hp tac :=
  first [ exfalso; vm_compute in Hp; lia
        | destruct p as [|p]; [cbn in K; try discriminate K; tac|walk p K Hp tac] ].
Ltac links_net H :=
  apply links_in in H; vm_compute in H;
  repeat (destruct H as [H|H]; [injection H as <- <-|]); [..|destruct H].
Ltac consistent_net :=
  constructor;
  [ let x := fresh "x" in let y := fresh "y" in let H := fresh "H" in
    intros x y _ H; cbn [link net_of built] in H; links_net H; cbn; lra
  | let p := fresh "p" in let Hp := fresh "Hp" in let K := fresh "K" in
    intros p Hp K; walk p K Hp ltac:(cbn; lra)
  | let p := fresh "p" in let i := fresh "i" in let Hp := fresh "Hp" in let K := fresh "K" in let Hi := fresh "Hi" in
    intros p i Hp K Hi; walk p K Hp ltac:(destruct i as [|[|i]]; [cbn in *; lra|cbn in *; lra|exfalso; lia])
  | let p := fresh "p" in let b := fresh "b" in let Hp := fresh "Hp" in let K := fresh "K" in
    intros p b Hp K; walk p K Hp ltac:(cbn; split; [lra|split; [lra|first [discriminate|intros _; cbn in *; lra]]])
  | let p := fresh "p" in let Hp := fresh "Hp" in let K := fresh "K" in intros p Hp K; walk p K Hp ltac:(cbn; lra)
  | let p := fresh "p" in let b := fresh "b" in let i := fresh "i" in let Hp := fresh "Hp" in let K := fresh "K" in let Hi := fresh "Hi" in
    intros p b i Hp K Hi; walk p K Hp ltac:(cbn; lra)
  | let p := fresh "p" in let i := fresh "i" in let Hp := fresh "Hp" in let K := fresh "K" in let Hi := fresh "Hi" in
    intros p i Hp K Hi; walk p K Hp ltac:(destruct i as [|[|i]]; [cbn in *; nra|cbn in *; nra|exfalso; lia])
  | let p := fresh "p" in let b := fresh "b" in let k := fresh "k" in let Hp := fresh "Hp" in let K := fresh "K" in
    intros p b k Hp K; walk p K Hp ltac:(injection K as <- <-; cbn; nra) ].
Ltac open_net :=
  let p := fresh "p" in let i := fresh "i" in let Hp := fresh "Hp" in let K := fresh "K" in let Hi := fresh "Hi" in
  intros p i Hp K Hi; walk p K Hp ltac:(destruct i as [|[|i]]; [cbn in *; lra|cbn in *; lra|exfalso; lia]).

(** Flows in [lowex]. *)
Definition lowex_phi (P Q C W a : R) (x : port) : R :=
  match x with
  | (0, 0) => - (a * (P + Q)) | (0, 1) => Q - (1 - a) * (P + Q) | (0, _) => P
  | (1, 0) => a * (P + Q) | (1, 1) => (1 - a) * (P + Q) | (1, _) => - (P + Q)
  | (2, 0) => P + Q | (2, 1) => - Q | (2, _) => - P
  | (3, _) => P | (4, _) => Q
  | (5, 0) | (5, 1) => P | (5, _) => W
  | (6, 0) | (6, 1) => Q | (6, _) => C
  | (7, 0) => Q | (7, 1) => - ((1 - a) * (P + Q)) | (7, _) => (1 - a) * (P + Q) - Q
  | (8, _) => (1 - a) * (P + Q) | (9, _) => P | (10, _) => C
  | (11, 0) => W | (11, 1) => C | (11, _) => - (W + C)
  | (12, _) => C | _ => W
  end%R%nat.
(** Hot water and circulation from the storage: of the flow of both pumps the share [a] comes from the storage; the
    rest is taken from the return of the circulation.  What is taken from the storage goes back to it. *)
Theorem C161_lowex : forall w P Q C W a,
  w (pump_cell lowex "pwp_phw_ff_") = P ->
  w (pump_cell lowex "pwp_rc_ff_") = Q ->
  w (pump_cell lowex "pwp_rc_") = C ->
  w (pump_cell lowex "pwp_cw_") = W ->
  opening lowex "p3v_phwrc_ff_mix_" w a ->
  exists st w', topology (net_of lowex) (order lowex) = Done st /\ run_net (out st) w = Some w' /\
    let q := fun pre port => flow (net_of lowex) st w' (at_ lowex pre port) in
      (q "p3v_phwrc_ff_mix_" "A" = a * (P + Q) /\
      q "p_rc_to_mix" "out" = (1 - a) * (P + Q) /\
      q "p_phw_rf_" "out" = P /\
      q "pb_rc_rf_" "out" = - (a * (P + Q) - P) /\
      q "hex_phw_" "sup_in" = P /\
      q "hex_phw_" "dmd_in" = W /\
      q "hex_rc_" "sup_in" = Q /\
      q "hex_rc_" "dmd_in" = C /\
      q "pb_phwrc_dmd_" "out" = - (W + C))%R.
Proof.
  intros w P Q C W a H1 H2 H3 H4 H5. assert (E1 : w 30%nat = P) by exact H1. assert (E2 : w 40%nat = Q) by exact H2. assert (E3 : w 120%nat = C) by exact H3. assert (E4 : w 130%nat = W) by exact H4. destruct H5 as (A5 & B5 & O5). assert (E5 : w 15%nat = a) by exact A5. assert (F5 : w 16%nat = (1 - a)%R) by exact B5. clear A5 B5. clear H1 H2 H3 H4.
  destruct (flows_of lowex w (lowex_phi P Q C W a) ltac:(cbn; tauto)) as (st & w' & T & R & H).
  - consistent_net.
  - open_net.
  - exists st, w'. split; [exact T|]. split; [exact R|]. cbv zeta.
    repeat split; (etransitivity; [apply H; [split; vm_compute; lia|intro n; vm_compute; discriminate]|cbn; lra]).
Qed.
Print Assumptions C161_lowex.

(** Flows in [store_loading]. *)
Definition store_loading_phi (P S C W a : R) (x : port) : R :=
  match x with
  | (0, 0) => - (a * P) | (0, _) => a * P
  | (1, 0) => - (C + W) | (1, 1) => S | (1, 2) => C | (1, 3) => W | (1, _) => - S
  | (2, 0) => a * P | (2, 1) => (1 - a) * P | (2, _) => - P
  | (3, _) => P | (4, 0) => P | (4, 1) => - ((1 - a) * P) | (4, _) => - (a * P)
  | (5, _) => (1 - a) * P | (6, 0) | (6, 1) => P | (6, _) => S
  | (7, _) => S | (8, _) => S | (9, _) => C + W | (10, _) => C | _ => W
  end%R%nat.
(** Storage loading: the share [a] of the pump flow is exchanged with the supply storage; what is drawn from the hot
    water storage is the cold water and the circulation together. *)
Theorem C161_store_loading : forall w P S C W a,
  w (pump_cell store_loading "sps_pwp_ff_hex_") = P ->
  w (pump_cell store_loading "sps_pwp_rf_store_") = S ->
  w (pump_cell store_loading "sps_pwp_rc_") = C ->
  w (pump_cell store_loading "sps_pwp_cw_") = W ->
  opening store_loading "sps_p3v_ff_hex_" w a ->
  exists st w', topology (net_of store_loading) (order store_loading) = Done st /\ run_net (out st) w = Some w' /\
    let q := fun pre port => flow (net_of store_loading) st w' (at_ store_loading pre port) in
      (q "sps_p3v_ff_hex_" "A" = a * P /\
      q "sps_pb_rf_hex_" "out" = - (a * P) /\
      q "sps_hex_phw_store_" "sup_in" = P /\
      q "sps_hex_phw_store_" "dmd_in" = S /\
      q "sps_p_ff_store_" "out" = S /\
      q "sps_p_phwrc_dmd_" "out" = C + W)%R.
Proof.
  intros w P S C W a H1 H2 H3 H4 H5. assert (E1 : w 30%nat = P) by exact H1. assert (E2 : w 80%nat = S) by exact H2. assert (E3 : w 100%nat = C) by exact H3. assert (E4 : w 110%nat = W) by exact H4. destruct H5 as (A5 & B5 & O5). assert (E5 : w 25%nat = a) by exact A5. assert (F5 : w 26%nat = (1 - a)%R) by exact B5. clear A5 B5. clear H1 H2 H3 H4.
  destruct (flows_of store_loading w (store_loading_phi P S C W a) ltac:(cbn; tauto)) as (st & w' & T & R & H).
  - consistent_net.
  - open_net.
  - exists st, w'. split; [exact T|]. split; [exact R|]. cbv zeta.
    repeat split; (etransitivity; [apply H; [split; vm_compute; lia|intro n; vm_compute; discriminate]|cbn; lra]).
Qed.
Print Assumptions C161_store_loading.

(** Flows in [heating]. *)
Definition heating_phi (P a c : R) (x : port) : R :=
  match x with
  | (0, 0) => c * ((1 - a) * P) | (0, _) => - (c * ((1 - a) * P))
  | (1, _) => P
  | (2, 0) => P | (2, 1) => - ((1 - c) * ((1 - a) * P)) | (2, 2) => - (a * P) | (2, _) => - (c * ((1 - a) * P))
  | (3, 0) => a * P | (3, 1) => (1 - a) * P | (3, _) => - P
  | (4, 0) => c * ((1 - a) * P) | (4, 1) => (1 - c) * ((1 - a) * P) | (4, _) => - ((1 - a) * P)
  | _ => a * P
  end%R%nat.
(** Space heating: the building returns what it is given; the share [a] passes the boiler, of the rest the share
    [c] is exchanged with the storage. *)
Theorem C161_heating : forall w P a c,
  w (pump_cell heating "pwp_sh_ff_") = P ->
  opening heating "p3v_sh_tes_gb_" w a ->
  opening heating "p3v_sh_tes_rf_" w c ->
  exists st w', topology (net_of heating) (order heating) = Done st /\ run_net (out st) w = Some w' /\
    let q := fun pre port => flow (net_of heating) st w' (at_ heating pre port) in
      (q "pb_sh_rf_" "in" = P /\
      q "ph_sh_gasb_" "in" = a * P /\
      q "p3v_sh_tes_rf_" "A" = c * ((1 - a) * P) /\
      q "pb_sh_rf_" "out" = - (c * ((1 - a) * P)) /\
      q "p3v_sh_tes_rf_" "B" = (1 - c) * ((1 - a) * P))%R.
Proof.
  intros w P a c H1 H2 H3. assert (E1 : w 10%nat = P) by exact H1. destruct H2 as (A2 & B2 & O2). assert (E2 : w 35%nat = a) by exact A2. assert (F2 : w 36%nat = (1 - a)%R) by exact B2. clear A2 B2. destruct H3 as (A3 & B3 & O3). assert (E3 : w 45%nat = c) by exact A3. assert (F3 : w 46%nat = (1 - c)%R) by exact B3. clear A3 B3. clear H1.
  destruct (flows_of heating w (heating_phi P a c) ltac:(cbn; tauto)) as (st & w' & T & R & H).
  - consistent_net.
  - open_net.
  - exists st, w'. split; [exact T|]. split; [exact R|]. cbv zeta.
    repeat split; (etransitivity; [apply H; [split; vm_compute; lia|intro n; vm_compute; discriminate]|cbn; lra]).
Qed.
Print Assumptions C161_heating.

(** Flows in [boiler]. *)
Definition boiler_phi (P : R) (x : port) : R :=
  match x with
  | (0, 0) => P | (0, _) => - P | _ => P
  end%R%nat.
(** Boiler: all water of the pump passes the boiler. *)
Theorem C161_boiler : forall w P,
  w (pump_cell boiler "pwp_gasb_ff_") = P ->
  exists st w', topology (net_of boiler) (order boiler) = Done st /\ run_net (out st) w = Some w' /\
    let q := fun pre port => flow (net_of boiler) st w' (at_ boiler pre port) in
      (q "ph_gasb_" "out" = P /\
      q "pwp_gasb_ff_" "out" = P /\
      q "p_gasb_rf_" "in" = P)%R.
Proof.
  intros w P H1. assert (E1 : w 10%nat = P) by exact H1. clear H1.
  destruct (flows_of boiler w (boiler_phi P) ltac:(cbn; tauto)) as (st & w' & T & R & H).
  - consistent_net.
  - open_net.
  - exists st, w'. split; [exact T|]. split; [exact R|]. cbv zeta.
    repeat split; (etransitivity; [apply H; [split; vm_compute; lia|intro n; vm_compute; discriminate]|cbn; lra]).
Qed.
Print Assumptions C161_boiler.

(** Flows in [chp3]. *)
Definition chp3_phi (P G a c : R) (x : port) : R :=
  match x with
  | (0, 0) => P | (0, 1) => - (a * P) | (0, 2) => - (c * ((1 - a) * P)) | (0, _) => - ((1 - c) * ((1 - a) * P))
  | (1, _) => P | (2, _) => P
  | (3, 0) => a * P | (3, 1) => (1 - a) * P | (3, _) => - P
  | (4, _) => a * P
  | (5, 0) => c * ((1 - a) * P) | (5, 1) => (1 - c) * ((1 - a) * P) | (5, _) => - ((1 - a) * P)
  | (6, _) => (1 - c) * ((1 - a) * P)
  | (7, 0) | (7, 1) => a * P | _ => G
  end%R%nat.
(** CHP plant with three returns: the share [a] passes the flue gas heat exchanger, the rest comes from the two warm
    returns in the ratio of their valve; the flue gas flow [G] is the plant's. *)
Theorem C161_chp3 : forall w P G a c,
  w (pump_cell chp3 "pwp_chp_ff_") = P ->
  w (S (dcell (net_of chp3) (fst (at_ chp3 "hex_chp_fg_" "fluegas_in")))) = G ->
  opening chp3 "p3v_chp_rf_" w a ->
  opening chp3 "p3v_chp_rf_htA_" w c ->
  exists st w', topology (net_of chp3) (order chp3) = Done st /\ run_net (out st) w = Some w' /\
    let q := fun pre port => flow (net_of chp3) st w' (at_ chp3 pre port) in
      (q "CHP" "in" = P /\
      q "pwp_chp_ff_" "out" = P /\
      q "hex_chp_fg_" "water_in" = a * P /\
      q "p_chp_rf_lt_" "in" = a * P /\
      q "p3v_chp_rf_htA_" "A" = c * ((1 - a) * P) /\
      q "p_chp_rf_htB_" "in" = (1 - c) * ((1 - a) * P) /\
      q "hex_chp_fg_" "fluegas_in" = G)%R.
Proof.
  intros w P G a c H1 H2 H3 H4. assert (E1 : w 20%nat = P) by exact H1. assert (E2 : w 71%nat = G) by exact H2. destruct H3 as (A3 & B3 & O3). assert (E3 : w 35%nat = a) by exact A3. assert (F3 : w 36%nat = (1 - a)%R) by exact B3. clear A3 B3. destruct H4 as (A4 & B4 & O4). assert (E4 : w 55%nat = c) by exact A4. assert (F4 : w 56%nat = (1 - c)%R) by exact B4. clear A4 B4. clear H1 H2.
  destruct (flows_of chp3 w (chp3_phi P G a c) ltac:(cbn; tauto)) as (st & w' & T & R & H).
  - consistent_net.
  - open_net.
  - exists st, w'. split; [exact T|]. split; [exact R|]. cbv zeta.
    repeat split; (etransitivity; [apply H; [split; vm_compute; lia|intro n; vm_compute; discriminate]|cbn; lra]).
Qed.
Print Assumptions C161_chp3.

(** Flows in [chp2]. *)
Definition chp2_phi (P G a : R) (x : port) : R :=
  match x with
  | (0, 0) => P | (0, 1) => - (a * P) | (0, _) => - ((1 - a) * P)
  | (1, _) => P | (2, _) => P
  | (3, 0) => a * P | (3, 1) => (1 - a) * P | (3, _) => - P
  | (4, _) => a * P | (5, _) => (1 - a) * P
  | (6, 0) | (6, 1) => a * P | _ => G
  end%R%nat.
(** CHP plant with two returns. *)
Theorem C161_chp2 : forall w P G a,
  w (pump_cell chp2 "pwp_chp_ff_") = P ->
  w (S (dcell (net_of chp2) (fst (at_ chp2 "hex_chp_fg_" "fluegas_in")))) = G ->
  opening chp2 "p3v_chp_rf_" w a ->
  exists st w', topology (net_of chp2) (order chp2) = Done st /\ run_net (out st) w = Some w' /\
    let q := fun pre port => flow (net_of chp2) st w' (at_ chp2 pre port) in
      (q "CHP" "in" = P /\
      q "pwp_chp_ff_" "out" = P /\
      q "hex_chp_fg_" "water_in" = a * P /\
      q "p_chp_rf_lt_" "in" = a * P /\
      q "p_chp_rf_ht_" "in" = (1 - a) * P /\
      q "hex_chp_fg_" "fluegas_in" = G)%R.
Proof.
  intros w P G a H1 H2 H3. assert (E1 : w 20%nat = P) by exact H1. assert (E2 : w 61%nat = G) by exact H2. destruct H3 as (A3 & B3 & O3). assert (E3 : w 35%nat = a) by exact A3. assert (F3 : w 36%nat = (1 - a)%R) by exact B3. clear A3 B3. clear H1 H2.
  destruct (flows_of chp2 w (chp2_phi P G a) ltac:(cbn; tauto)) as (st & w' & T & R & H).
  - consistent_net.
  - open_net.
  - exists st, w'. split; [exact T|]. split; [exact R|]. cbv zeta.
    repeat split; (etransitivity; [apply H; [split; vm_compute; lia|intro n; vm_compute; discriminate]|cbn; lra]).
Qed.
Print Assumptions C161_chp2.

(** Flows in [chp1]. *)
Definition chp1_phi (P G : R) (x : port) : R :=
  match x with
  | (0, 0) => P | (0, _) => - P | (5, 2) | (5, 3) => G | _ => P
  end%R%nat.
(** CHP plant with one return: all water passes the flue gas heat exchanger. *)
Theorem C161_chp1 : forall w P G,
  w (pump_cell chp1 "pwp_chp_ff_") = P ->
  w (S (dcell (net_of chp1) (fst (at_ chp1 "hex_chp_fg_" "fluegas_in")))) = G ->
  exists st w', topology (net_of chp1) (order chp1) = Done st /\ run_net (out st) w = Some w' /\
    let q := fun pre port => flow (net_of chp1) st w' (at_ chp1 pre port) in
      (q "CHP" "in" = P /\
      q "pwp_chp_ff_" "out" = P /\
      q "hex_chp_fg_" "water_in" = P /\
      q "p_chp_rf_lt_" "in" = P /\
      q "hex_chp_fg_" "fluegas_in" = G)%R.
Proof.
  intros w P G H1 H2. assert (E1 : w 20%nat = P) by exact H1. assert (E2 : w 51%nat = G) by exact H2. clear H1 H2.
  destruct (flows_of chp1 w (chp1_phi P G) ltac:(cbn; tauto)) as (st & w' & T & R & H).
  - consistent_net.
  - open_net.
  - exists st, w'. split; [exact T|]. split; [exact R|]. cbv zeta.
    repeat split; (etransitivity; [apply H; [split; vm_compute; lia|intro n; vm_compute; discriminate]|cbn; lra]).
Qed.
Print Assumptions C161_chp1.

(** Flows in [chp0]. *)
Definition chp0_phi (P : R) (x : port) : R :=
  match x with
  | (0, 0) => P | (0, _) => - P | _ => P
  end%R%nat.
(** CHP plant without flue gas heat exchanger. *)
Theorem C161_chp0 : forall w P,
  w (pump_cell chp0 "pwp_chp_ff_") = P ->
  exists st w', topology (net_of chp0) (order chp0) = Done st /\ run_net (out st) w = Some w' /\
    let q := fun pre port => flow (net_of chp0) st w' (at_ chp0 pre port) in
      (q "CHP" "in" = P /\
      q "pwp_chp_ff_" "out" = P /\
      q "p_chp_rf_" "in" = P)%R.
Proof.
  intros w P H1. assert (E1 : w 20%nat = P) by exact H1. clear H1.
  destruct (flows_of chp0 w (chp0_phi P) ltac:(cbn; tauto)) as (st & w' & T & R & H).
  - consistent_net.
  - open_net.
  - exists st, w'. split; [exact T|]. split; [exact R|]. cbv zeta.
    repeat split; (etransitivity; [apply H; [split; vm_compute; lia|intro n; vm_compute; discriminate]|cbn; lra]).
Qed.
Print Assumptions C161_chp0.
(** The return of the circulation flows into the storage exactly while the valve takes at least the flow of the hot
    water pump from the storage. *)
Theorem C161_return : forall w P Q C W a,
  w (pump_cell lowex "pwp_phw_ff_") = P -> w (pump_cell lowex "pwp_rc_ff_") = Q ->
  w (pump_cell lowex "pwp_rc_") = C -> w (pump_cell lowex "pwp_cw_") = W ->
  opening lowex "p3v_phwrc_ff_mix_" w a ->
  exists st w', topology (net_of lowex) (order lowex) = Done st /\ run_net (out st) w = Some w' /\
    (flow (net_of lowex) st w' (at_ lowex "pb_rc_rf_" "out") <= 0 <-> P <= a * (P + Q))%R.
Proof.
  intros w P Q C W a HP HQ HC HW Ha. destruct (C161_lowex w P Q C W a HP HQ HC HW Ha) as (st & w' & T & R & H).
  exists st, w'. split; [exact T|]. split; [exact R|]. cbv zeta in H. destruct H as (_ & _ & _ & H & _). rewrite H. lra.
Qed.
Print Assumptions C161_return.

(** Pump flows of 0.5 and 0.1 kg/s, 0.1 and 0.4 kg/s on the other side, valve half open. *)
Definition half_open (x : addr) : R :=
  if Nat.eqb x (pump_cell lowex "pwp_phw_ff_") then 1 / 2
  else if Nat.eqb x (pump_cell lowex "pwp_rc_ff_") then 1 / 10
  else if Nat.eqb x (pump_cell lowex "pwp_rc_") then 1 / 10
  else if Nat.eqb x (pump_cell lowex "pwp_cw_") then 4 / 10
  else if Nat.eqb x (branch_A lowex "p3v_phwrc_ff_mix_") then 1 / 2
  else if Nat.eqb x (branch_B lowex "p3v_phwrc_ff_mix_") then 1 / 2 else 0.
Lemma half_open_cells :
  (half_open (pump_cell lowex "pwp_phw_ff_") = 1 / 2 /\ half_open (pump_cell lowex "pwp_rc_ff_") = 1 / 10 /\
   half_open (pump_cell lowex "pwp_rc_") = 1 / 10 /\ half_open (pump_cell lowex "pwp_cw_") = 4 / 10 /\
   opening lowex "p3v_phwrc_ff_mix_" half_open (1 / 2))%R.
Proof. cbn. unfold opening. cbn. lra. Qed.
(** The return is not one: with all pumps running forwards and the valve half open the module draws water from the
    storage through its return connector. *)
Theorem C161_return_refuted : exists w st w',
  (0 < w (pump_cell lowex "pwp_phw_ff_") /\ 0 < w (pump_cell lowex "pwp_rc_ff_") /\
   0 < w (pump_cell lowex "pwp_rc_") /\ 0 < w (pump_cell lowex "pwp_cw_") /\
   opening lowex "p3v_phwrc_ff_mix_" w (1 / 2))%R /\
  topology (net_of lowex) (order lowex) = Done st /\ run_net (out st) w = Some w' /\
  (0 < flow (net_of lowex) st w' (at_ lowex "pb_rc_rf_" "out"))%R.
Proof.
  destruct half_open_cells as (H1 & H2 & H3 & H4 & H5).
  destruct (C161_lowex half_open _ _ _ _ _ H1 H2 H3 H4 H5) as (st & w' & T & R & H).
  exists half_open, st, w'. rewrite H1, H2, H3, H4. split; [repeat split; try lra; apply H5|].
  split; [exact T|]. split; [exact R|]. cbv zeta in H. destruct H as (_ & _ & _ & H & _). rewrite H. lra.
Qed.
Print Assumptions C161_return_refuted.

(** Example: a flow of 0.5 kg/s is delivered while the storage gives 0.3 kg/s. *)
Example C161_example : exists st w', topology (net_of lowex) (order lowex) = Done st /\ run_net (out st) half_open = Some w' /\
  (flow (net_of lowex) st w' (at_ lowex "p3v_phwrc_ff_mix_" "A") = 3 / 10 /\
   flow (net_of lowex) st w' (at_ lowex "pb_phwrc_dmd_" "out") = - (1 / 2))%R.
Proof.
  destruct half_open_cells as (H1 & H2 & H3 & H4 & H5).
  destruct (C161_lowex half_open _ _ _ _ _ H1 H2 H3 H4 H5) as (st & w' & T & R & H).
  exists st, w'. split; [exact T|]. split; [exact R|]. cbv zeta in H. destruct H as (A & _ & _ & _ & _ & _ & _ & _ & B).
  rewrite A, B. lra.
Qed.
