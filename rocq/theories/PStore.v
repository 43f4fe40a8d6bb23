(** What is recorded and stored: C145, C146, C147, C150. *)
From Coq Require Import List ZArith Bool Arith Lia.
From Verif Require Import MStore.
Import ListNotations.

(** ** C145: the result file holds the chosen cells *)
(** The cells a user chooses. *)
Definition chosen (w : want) (c : nat) : Prop :=
  match w with
  | Whole b => b = true
  | Cell z => Z.of_nat c = z
  | Cells l => In (Z.of_nat c) l
  | Range a b => (a <= c < b)%nat
  end.
Definition not_negative (w : want) : Prop :=
  match w with
  | Cell z => (0 <= z)%Z
  | Cells l => forall z, In z l -> (0 <= z)%Z
  | _ => True
  end.
Definition holds (w : want) (cols : nat) (k : option (list nat)) : Prop :=
  match k with
  | None => w = Whole false
  | Some l => w <> Whole false /\ forall c, In c l <-> (c < cols)%nat /\ (cols = 1%nat \/ chosen w c)
  end.

Lemma columns_ok cols l : (forall z, In z l -> (0 <= z < Z.of_nat cols)%Z) ->
  columns cols l = Some (map Z.to_nat l).
Proof.
  induction l as [|z r IH]; intros H; [reflexivity|]. cbn [columns map].
  rewrite IH by (intros; apply H; right; assumption).
  unfold column. pose proof (H z (or_introl eq_refl)) as B.
  destruct (Z.leb_spec 0 z); [|lia]. destruct (Z.ltb_spec z (Z.of_nat cols)); [reflexivity | lia].
Qed.

Lemma kept_holds w cols : (cols = 1%nat \/ accept (Some (Z.of_nat cols)) w = true) -> not_negative w ->
  exists k, kept w cols = Some k /\ holds w cols k.
Proof.
  intros A N. unfold kept.
  destruct (Nat.eqb_spec cols 1) as [E|E].
  { subst cols. destruct w as [[|]|z|l|a b]; eexists; (split; [reflexivity|]);
      cbn [holds]; try reflexivity; (split; [discriminate|]); intros c; cbn; lia. }
  destruct A as [A|A]; [contradiction|].
  destruct w as [[|]|z|l|a b].
  - eexists; split; [reflexivity|]. split; [discriminate|]. intros c. rewrite in_seq. cbn. lia.
  - eexists; split; reflexivity.
  - cbn in A, N. apply Z.ltb_lt in A. rewrite columns_ok by (intros y [<-|[]]; lia).
    eexists; split; [reflexivity|]. split; [discriminate|]. intros c. cbn. split.
    + intros [<-|[]]. lia.
    + intros [H [H'|H']]; [contradiction|]. left. lia.
  - cbn in A, N. rewrite forallb_forall in A.
    assert (B : forall z, In z l -> (0 <= z < Z.of_nat cols)%Z).
    { intros z H. specialize (A z H). apply Z.ltb_lt in A. specialize (N z H). lia. }
    rewrite columns_ok by assumption.
    eexists; split; [reflexivity|]. split; [discriminate|]. intros c. rewrite in_map_iff. cbn [chosen]. split.
    + intros [z [<- H]]. specialize (B z H). split; [lia|]. right. rewrite Z2Nat.id by lia. exact H.
    + intros [H [H'|H']]; [contradiction|]. exists (Z.of_nat c). split; [apply Nat2Z.id | exact H'].
  - eexists; split; [reflexivity|]. split; [discriminate|]. intros c. rewrite in_seq. cbn [chosen]. lia.
Qed.

(** With compression, if all tables of a part have one column for each grid point or one column, the file holds
    exactly the chosen cells. *)
Theorem C145_selected (sel : name -> want) (tabs : list table) :
  (forall n cols, In (n, cols) tabs ->
     (cols = 1%nat \/ accept (Some (Z.of_nat cols)) (sel n) = true) /\ not_negative (sel n)) ->
  exists f, file true sel tabs = Some f /\
    Forall2 (fun t e => fst e = fst t /\ holds (sel (fst t)) (snd t) (snd e)) tabs f.
Proof.
  induction tabs as [|[n cols] r IH]; intros H.
  { exists []. split; [reflexivity | constructor]. }
  destruct IH as [f [E F]]; [intros m c Hm; apply H; right; exact Hm|].
  destruct (H n cols (or_introl eq_refl)) as [A N].
  destruct (kept_holds (sel n) cols A N) as [k [Ek Hk]].
  exists ((n, k) :: f). cbn [file]. rewrite Ek, E. split; [reflexivity|].
  constructor; [split; [reflexivity | exact Hk] | exact F].
Qed.
Print Assumptions C145_selected.
(** Storage with 20 grid points (tables of 20 columns), pipe with 10 (10 columns and 1 for the flow). *)
Example C145_selected_ex : exists f,
  file true (fun n => match n with O => Cells [0; 19]%Z | _ => Cell 3%Z end)
    [(0, 20); (0, 20); (1, 10); (1, 1)]%nat = Some f /\
  f = [(0, Some [0; 19]); (0, Some [0; 19]); (1, Some [3]); (1, Some [0])]%nat.
Proof. eexists. split; reflexivity. Qed.
Example C145_selected_ex2 : forall n cols, In (n, cols) [(0, 20); (0, 20); (1, 10); (1, 1)]%nat ->
  let sel n := match n with O => Cells [0; 19]%Z | _ => Cell 3%Z end in
  (cols = 1%nat \/ accept (Some (Z.of_nat cols)) (sel n) = true) /\ not_negative (sel n).
Proof.
  intros n cols H sel. cbn in H.
  destruct H as [H|[H|[H|[H|[]]]]]; injection H as <- <-; (split; [first [left; reflexivity | right; reflexivity]|]);
    cbn; try lia; intros z [<-|[<-|[]]]; lia.
Qed.

(** Without compression ([complevel=0]) everything is stored, whatever was chosen. *)
Theorem C145_uncompressed_refuted sel tabs :
  file false sel tabs = Some (map (fun t => (fst t, Some (seq 0 (snd t)))) tabs).
Proof.
  induction tabs as [|[n c] r IH]; [reflexivity|]. cbn [file map]. rewrite IH. reflexivity.
Qed.
Print Assumptions C145_uncompressed_refuted.
Example C145_uncompressed_ex : file false (fun _ => Whole false) [(0, 3)]%nat = Some [(0, Some [0; 1; 2])]%nat.
Proof. reflexivity. Qed.

(** A part without grid points: choosing cell 0 stores nothing, choosing any other cell stores all. *)
Theorem C145_index_refuted z cols :
  accept None (reduced None (Cell z)) = true /\
  kept (reduced None (Cell z)) cols = Some (if (z =? 0)%Z then None else Some (seq 0 cols)).
Proof. cbn. destruct (z =? 0)%Z; split; reflexivity. Qed.
Print Assumptions C145_index_refuted.
(** A mixing valve with three ports. *)
Example C145_index_ex : kept (reduced None (Cell 0)) 3 = Some None /\
  kept (reduced None (Cell 1)) 3 = Some (Some [0; 1; 2]%nat).
Proof. split; reflexivity. Qed.

Lemma file_fails sel tabs n cols : In (n, cols) tabs -> kept (sel n) cols = None -> file true sel tabs = None.
Proof.
  induction tabs as [|[m c] r IH]; intros H K; [destruct H|]. cbn [file]. destruct H as [H|H].
  - injection H as -> ->. rewrite K. reflexivity.
  - rewrite (IH H K). destruct (kept (sel m) c); reflexivity.
Qed.

(** A negative cell beyond the first is accepted when the part is added, and lets the run fail at its end. *)
Theorem C145_negative_refuted sel tabs n (gp : nat) z : (gp <> 1)%nat -> (z < - Z.of_nat gp)%Z ->
  In (n, gp) tabs -> sel n = Cell z -> accept (Some (Z.of_nat gp)) (Cell z) = true /\ file true sel tabs = None.
Proof.
  intros G Z I S. split; [cbn; apply Z.ltb_lt; lia|].
  apply (file_fails sel tabs n gp I). rewrite S. unfold kept.
  destruct (Nat.eqb_spec gp 1); [contradiction|]. cbn. unfold column.
  destruct (Z.leb_spec 0 z); [lia|]. destruct (Z.leb_spec (- Z.of_nat gp) z); [lia | reflexivity].
Qed.
Print Assumptions C145_negative_refuted.
Example C145_negative_ex : file true (fun _ => Cell (-21)) [(0, 20)]%nat = None.
Proof. reflexivity. Qed.

(** The numeric heat exchanger with [gp] grid points has [3 * gp] columns of temperatures and two of flows:
    each cell from 2 on is accepted and lets the run fail at its end ... *)
Theorem C145_exchanger_refuted sel tabs n (gp : nat) z : (2 <= z < Z.of_nat gp)%Z ->
  In (n, 3 * gp)%nat tabs -> In (n, 2)%nat tabs -> sel n = Cell z ->
  accept (Some (Z.of_nat gp)) (Cell z) = true /\ file true sel tabs = None.
Proof.
  intros Z _ I S. split; [cbn; apply Z.ltb_lt; lia|].
  apply (file_fails sel tabs n 2 I). rewrite S. unfold kept. cbn. unfold column.
  destruct (Z.leb_spec 0 z); [|lia]. destruct (Z.ltb_spec z (Z.of_nat 2)); [lia | reflexivity].
Qed.
Print Assumptions C145_exchanger_refuted.
Example C145_exchanger_ex : file true (fun _ => Cell 5) [(0, 2); (0, 60)]%nat = None.
Proof. reflexivity. Qed.

(** ... and cell 1 is stored as a column of cell 0: flattening by rows puts grid point [i], column [j] of the
    three at column [3 i + j]. *)
Theorem C145_flattened_refuted (gp i j : nat) : (2 <= gp)%nat -> (j < 3)%nat ->
  accept (Some (Z.of_nat gp)) (Cell 1) = true /\
  exists c, kept (Cell 1) (3 * gp) = Some (Some [c]) /\ (c = 3 * i + j -> i = 0)%nat.
Proof.
  intros G J. split; [cbn; apply Z.ltb_lt; lia|]. exists 1%nat. split; [|lia].
  unfold kept. destruct (Nat.eqb_spec (3 * gp) 1); [lia|]. cbn [columns]. unfold column.
  destruct (Z.leb_spec 0 1); [|lia]. destruct (Z.ltb_spec 1 (Z.of_nat (3 * gp))); [reflexivity | lia].
Qed.
Print Assumptions C145_flattened_refuted.
Example C145_flattened_ex : kept (Cell 1) 60 = Some (Some [1%nat]) /\ (1 = 3 * 0 + 1)%nat.
Proof. split; reflexivity. Qed.

(** ** C146: a rejected call changes nothing *)
(** Rejected calls leave parts, open ports, connections and controls alone; rejected open ports and controls
    leave everything alone ... *)
Theorem C146_structure d c : snd (record d c) = false ->
  actions (fst (record d c)) = actions d /\
  ((forall n gp w a, c <> AddPart n gp w a) -> fst (record d c) = d).
Proof.
  destruct c as [n gp w a|n a|p q|n a]; cbn [record]; intros H.
  - split; [|intros N; exfalso; exact (N n gp w a eq_refl)].
    destruct (accept gp (reduced gp w)); [destruct (has n (parts d)) | idtac]; cbn in H; try discriminate; reflexivity.
  - destruct (has n (opens d)); [|discriminate]. split; reflexivity.
  - discriminate.
  - destruct (has n (ctrls d)); [|discriminate]. split; reflexivity.
Qed.
Print Assumptions C146_structure.
Example C146_structure_ex : let d := describe [AddOpenPort 0 7; AddControl 1 5] in
  snd (record d (AddOpenPort 0 8)) = false /\ opens (fst (record d (AddOpenPort 0 8))) = [(0, 7)]%nat.
Proof. split; reflexivity. Qed.

Definition lookup (n : name) (d : list (name * want)) : option want :=
  option_map snd (find (fun e => (fst e =? n)%nat) d).
Lemma lookup_put n w d : lookup n (put Nat.eqb n w d) = Some w.
Proof.
  unfold lookup. induction d as [|[k v] r IH]; cbn.
  - rewrite Nat.eqb_refl. reflexivity.
  - destruct (Nat.eqb_spec n k) as [->|N]; cbn.
    + rewrite Nat.eqb_refl. reflexivity.
    + destruct (Nat.eqb_spec k n) as [->|_]; [contradiction | exact IH].
Qed.

(** ... but a rejected second part of the same name overwrites what the first one stores, whatever was
    chosen for the first one. *)
Theorem C146_duplicate_refuted d n gp w a : has n (parts d) = true -> accept gp (reduced gp w) = true ->
  snd (record d (AddPart n gp w a)) = false /\
  lookup n (stored (fst (record d (AddPart n gp w a)))) = Some (reduced gp w).
Proof.
  intros H A. cbn [record]. rewrite A, H. split; [reflexivity|]. cbn [fst stored]. apply lookup_put.
Qed.
Print Assumptions C146_duplicate_refuted.
(** The results of the first part are lost. *)
Example C146_duplicate_ex : let d := describe [AddPart 0 (Some 20%Z) (Whole true) 1] in
  let d' := fst (record d (AddPart 0 (Some 20%Z) (Whole false) 1)) in
  lookup 0 (stored d) = Some (Whole true) /\ lookup 0 (stored d') = Some (Whole false) /\
  parts d' = parts d /\ kept (Whole false) 20 = Some None.
Proof. repeat split; reflexivity. Qed.

(** A single cell out of range is recorded as well before it is rejected. *)
Theorem C146_cell_refuted d n g z a : (g <= z)%Z ->
  snd (record d (AddPart n (Some g) (Cell z) a)) = false /\
  lookup n (stored (fst (record d (AddPart n (Some g) (Cell z) a)))) = Some (Cell z).
Proof.
  intros H. cbn [record reduced accept]. destruct (Z.ltb_spec z g); [lia|]. split; [reflexivity|].
  cbn [fst stored recorded_first]. apply lookup_put.
Qed.
Print Assumptions C146_cell_refuted.
Example C146_cell_ex :
  lookup 0 (stored (fst (record empty (AddPart 0 (Some 20%Z) (Cell 20) 1)))) = Some (Cell 20).
Proof. reflexivity. Qed.

(** ** C147: the order of the description does not matter *)
Inductive kind := KPart | KOpen | KConn | KCtrl.
Definition kind_of (c : call) : kind :=
  match c with AddPart _ _ _ _ => KPart | AddOpenPort _ _ => KOpen | Connect _ _ => KConn | AddControl _ _ => KCtrl end.
Definition is_kind (k : kind) (c : call) : bool :=
  match k, kind_of c with
  | KPart, KPart | KOpen, KOpen | KConn, KConn | KCtrl, KCtrl => true
  | _, _ => false
  end.
(** The two scripts make the same calls, in the same order for each kind of call. *)
Definition same_calls (cs cs' : list call) : Prop := forall k, filter (is_kind k) cs = filter (is_kind k) cs'.

Definition agree (k : kind) (d e : desc) : Prop :=
  match k with
  | KPart => parts d = parts e /\ stored d = stored e
  | KOpen => opens d = opens e
  | KConn => conns d = conns e
  | KCtrl => ctrls d = ctrls e
  end.
Lemma agree_eq d e : (forall k, agree k d e) -> d = e.
Proof.
  intros H. destruct d, e. pose proof (H KPart) as [A B]. pose proof (H KOpen) as C.
  pose proof (H KConn) as D. pose proof (H KCtrl) as F. cbn in *. congruence.
Qed.
Lemma agree_refl k d : agree k d d.
Proof. destruct k; cbn; auto. Qed.
Lemma agree_trans k d e f : agree k d e -> agree k e f -> agree k d f.
Proof. destruct k; cbn; intros; try congruence. destruct H, H0. split; congruence. Qed.
Lemma agree_sym k d e : agree k d e -> agree k e d.
Proof. destruct k; cbn; auto. intros [A B]; auto. Qed.

Lemma record_same k c d e : is_kind k c = true -> agree k d e ->
  agree k (fst (record d c)) (fst (record e c)) /\ snd (record d c) = snd (record e c).
Proof.
  destruct k, c as [n gp w a|n a|p q|n a]; try discriminate; intros _ A; cbn in A.
  - destruct A as [A B]. cbn [record]. rewrite <- A, <- B.
    destruct (accept gp (reduced gp w)); [destruct (has n (parts d))|];
      cbn; rewrite <- ?A, <- ?B; repeat split; try assumption.
  - cbn [record]. rewrite <- A. destruct (has n (opens d)); cbn; rewrite <- ?A; split; auto.
  - cbn. rewrite A. split; reflexivity.
  - cbn [record]. rewrite <- A. destruct (has n (ctrls d)); cbn; rewrite <- ?A; split; auto.
Qed.
Lemma record_other k c d : is_kind k c = false -> agree k (fst (record d c)) d.
Proof.
  destruct k, c as [n gp w a|n a|p q|n a]; try discriminate; intros _; cbn [record];
    repeat match goal with |- context [if ?b then _ else _] => destruct b end; cbn; auto.
Qed.

Definition go (d : desc) (cs : list call) : desc := fold_left (fun d c => fst (record d c)) cs d.
Lemma go_filter k cs : forall d e, agree k d e -> agree k (go d cs) (go e (filter (is_kind k) cs)).
Proof.
  induction cs as [|c r IH]; intros d e A; [exact A|]. cbn [filter]. destruct (is_kind k c) eqn:K.
  - cbn. apply IH. apply record_same; assumption.
  - cbn. apply IH. apply (agree_trans k _ d); [apply record_other; exact K | exact A].
Qed.
Lemma go_same k cs cs' d : filter (is_kind k) cs = filter (is_kind k) cs' -> agree k (go d cs) (go d cs').
Proof.
  intros E. apply (agree_trans k _ (go d (filter (is_kind k) cs))).
  - apply go_filter, agree_refl.
  - rewrite E. apply agree_sym, go_filter, agree_refl.
Qed.

(** Every script with the same calls gives the same environment and stores the same results, even if some of
    the calls raise ... *)
Theorem C147_order cs cs' : same_calls cs cs' -> describe cs = describe cs'.
Proof. intros H. apply agree_eq. intros k. apply (go_same k cs cs' empty (H k)). Qed.
Print Assumptions C147_order.

(** The last connection asked for at a port. *)
Fixpoint last_asked (p : name * name) (cs : list call) (q0 : option (name * name)) : option (name * name) :=
  match cs with
  | [] => q0
  | Connect p' q :: r =>
      last_asked p r (if andb (fst p' =? fst p) (snd p' =? snd p) then Some q else q0)%nat
  | _ :: r => last_asked p r q0
  end.
Fixpoint found {V} (p : name * name) (d : list ((name * name) * V)) : option V :=
  match d with
  | [] => None
  | (p', v) :: r => if andb (fst p' =? fst p) (snd p' =? snd p) then Some v else found p r
  end%nat.
Lemma peq p q : andb (fst p =? fst q)%nat (snd p =? snd q)%nat = true <-> p = q.
Proof.
  destruct p as [a b], q as [c d]. cbn. rewrite andb_true_iff, !Nat.eqb_eq.
  split; [intros []; congruence | intros E; injection E; auto].
Qed.
Lemma found_put {V} p p' (v : V) d : found p (put port_eqb p' v d) =
  if andb (fst p' =? fst p)%nat (snd p' =? snd p)%nat then Some v else found p d.
Proof.
  induction d as [|[p2 v2] r IH]; [reflexivity|]. cbn [put]. unfold port_eqb at 1.
  destruct (andb (fst p' =? fst p2)%nat (snd p' =? snd p2)%nat) eqn:E.
  - apply peq in E. subst p2. cbn [found]. destruct (andb _ _); reflexivity.
  - cbn [found]. rewrite IH. destruct (andb (fst p2 =? fst p)%nat _) eqn:F; [|reflexivity].
    apply peq in F. subst p2. rewrite E. reflexivity.
Qed.
Lemma go_found p cs : forall d, found p (conns (go d cs)) = last_asked p cs (found p (conns d)).
Proof.
  induction cs as [|c r IH]; intros d; [reflexivity|]. cbn [go fold_left]. fold (go (fst (record d c)) r).
  rewrite IH. destruct c as [n gp w a|n a|p' q|n a]; cbn [record last_asked];
    repeat match goal with |- context [if ?b then (_, _) else _] => destruct b end; try reflexivity.
  cbn [fst conns]. rewrite found_put. reflexivity.
Qed.
(** What is carried out for a port is the last connection asked for there, and nothing for a port
    that never was the first one of a connection. *)
Theorem C147_connections cs p : found p (conns (describe cs)) = last_asked p cs None.
Proof. exact (go_found p cs empty). Qed.
Print Assumptions C147_connections.
Example C147_connections_ex :
  let cs := [Connect (0, 0) (1, 0); AddPart 7 None (Whole true) 0; Connect (0, 1) (2, 0);
             Connect (1, 1) (2, 1)]%nat in
  conns (describe cs) = [((0, 0), (1, 0)); ((0, 1), (2, 0)); ((1, 1), (2, 1))]%nat.
Proof. reflexivity. Qed.

Lemma script_kind k cs : forall d e, agree k d e ->
  script d (filter (is_kind k) cs) <> None -> script e (filter (is_kind k) cs) <> None.
Proof.
  induction cs as [|c r IH]; intros d e A H; [discriminate|].
  cbn [filter] in *. destruct (is_kind k c) eqn:K; [|apply (IH d e A H)].
  cbn [script] in *. destruct (record_same k c d e K A) as [A' S].
  rewrite <- S. destruct (snd (record d c)); [|exact H]. apply (IH _ _ A' H).
Qed.
Lemma script_split cs : forall d, script d cs <> None <-> forall k, script d (filter (is_kind k) cs) <> None.
Proof.
  induction cs as [|c r IH]; intros d; [split; intros; discriminate|]. split.
  - intros H k. cbn [script] in H. destruct (snd (record d c)) eqn:S; [|congruence].
    pose proof (proj1 (IH _) H k) as Hk. cbn [filter]. destruct (is_kind k c) eqn:K.
    + cbn [script]. rewrite S. exact Hk.
    + refine (script_kind k r _ _ _ Hk). apply record_other. exact K.
  - intros H. cbn [script].
    pose proof (H (kind_of c)) as Hc. cbn [filter] in Hc.
    assert (K : is_kind (kind_of c) c = true) by (destruct c; reflexivity). rewrite K in Hc. cbn [script] in Hc.
    destruct (snd (record d c)) eqn:S; [|congruence].
    apply IH. intros k. destruct (is_kind k c) eqn:Kk.
    + pose proof (H k) as Hk. cbn [filter] in Hk. rewrite Kk in Hk. cbn [script] in Hk. rewrite S in Hk. exact Hk.
    + pose proof (H k) as Hk. cbn [filter] in Hk. rewrite Kk in Hk.
      refine (script_kind k r _ _ _ Hk). apply agree_sym, record_other. exact Kk.
Qed.
Lemma script_go cs : forall d e, script d cs = Some e -> e = go d cs.
Proof.
  induction cs as [|c r IH]; cbn [script]; intros d e H; [injection H as <-; reflexivity|].
  destruct (snd (record d c)); [|discriminate]. apply IH. exact H.
Qed.

(** ... and raises if and only if the other raises. *)
Theorem C147_script cs cs' : same_calls cs cs' -> script empty cs = script empty cs'.
Proof.
  intros H. destruct (script empty cs) as [d|] eqn:E, (script empty cs') as [d'|] eqn:E'.
  - f_equal. rewrite (script_go _ _ _ E), (script_go _ _ _ E'). exact (C147_order cs cs' H).
  - exfalso. assert (N : script empty cs' <> None); [|congruence].
    apply script_split. intros k. rewrite <- H. apply (proj1 (script_split cs empty)). congruence.
  - exfalso. assert (N : script empty cs <> None); [|congruence].
    apply script_split. intros k. rewrite H. apply (proj1 (script_split cs' empty)). congruence.
  - reflexivity.
Qed.
Print Assumptions C147_script.
(** Connections and controls first, then the parts. *)
Example C147_ex : let ps := [AddPart 0 (Some 20%Z) (Whole true) 1; AddPart 1 None (Whole true) 2] in
  let cs := [Connect (0, 0) (1, 0); AddControl 5 3]%nat in
  same_calls (ps ++ cs) (cs ++ ps) /\ script empty (cs ++ ps) <> None /\
  actions (describe (cs ++ ps)) =
    [DoPart 0 (Some 20%Z) 1; DoPart 1 None 2; InitPart 0; InitPart 1; DoConnect (0, 0) (1, 0); DoControl 5 3;
     InitControl 5]%nat.
Proof. split; [intros [| | |]; reflexivity|]. split; [discriminate | reflexivity]. Qed.

(** ** C150: runs without result file can take as many steps as they need *)
(** With adaptive steps and results of two dimensions there is room for any number of steps. *)
Theorem C150_adaptive n lim steps cols : (0 < lim)%nat ->
  exists fuel rows, room_for fuel (more_rows true n) steps [room true n lim + 1; cols]%nat = Some [rows; cols] /\
    (steps < rows)%nat.
Proof.
  intros L.
  assert (G : forall f r, (steps < r + f)%nat ->
    exists rows, room_for f (more_rows true n) steps [r; cols] = Some [rows; cols] /\ (steps < rows)%nat).
  { induction f as [|f IH]; intros r H; cbn [room_for nth].
    - destruct (Nat.ltb_spec steps r); [|lia]. exists r. split; [reflexivity | lia].
    - destruct (Nat.ltb_spec steps r); [exists r; split; [reflexivity | lia]|].
      cbn [more_rows]. unfold enlarge, append_rows. cbn [nth].
      destruct (list_eq_dec Nat.eq_dec [cols] [cols]) as [_|E]; [|exfalso; apply E; reflexivity].
      apply IH. lia. }
  exists (S steps). apply (G (S steps)). lia.
Qed.
Print Assumptions C150_adaptive.
Example C150_adaptive_ex : room_for 5 (more_rows true 2) 700 [room true 2 (10 * 100) + 1; 3]%nat = Some [804; 3]%nat.
Proof. reflexivity. Qed.

(** With fixed steps a run with more steps than the limit (a million) ends with an error. *)
Theorem C150_fixed_refuted fuel n lim cols : (lim < n)%nat ->
  room_for fuel (more_rows false n) n [room false n lim + 1; cols]%nat = None.
Proof.
  intros H. destruct fuel; cbn [room_for nth]; unfold room;
    (destruct (Nat.ltb_spec n (Nat.min n lim + 1)); [lia | reflexivity]).
Qed.
Print Assumptions C150_fixed_refuted.
Example C150_fixed_ex : room_for 9 (more_rows false 20) 20 [room false 20 10 + 1; 4]%nat = None.
Proof. reflexivity. Qed.

(** The three-dimensional results of the numeric heat exchanger cannot be enlarged at all. *)
Theorem C150_exchanger_refuted fuel more steps r gp k : (r <= steps)%nat ->
  room_for fuel more steps [r; gp; k] = None.
Proof.
  intros H. destruct fuel; cbn [room_for nth]; (destruct (Nat.ltb_spec steps r); [lia|]); [reflexivity|].
  destruct more as [m|]; [|reflexivity]. unfold enlarge, append_rows. cbn [nth].
  destruct (list_eq_dec Nat.eq_dec [gp; k] [gp]) as [E|E]; [discriminate | reflexivity].
Qed.
Print Assumptions C150_exchanger_refuted.
Example C150_exchanger_ex : room_for 9 (more_rows true 2) 200 [200; 20; 3]%nat = None.
Proof. reflexivity. Qed.

(** Parts with further records (heating power, CHP) have no room for more steps than at the start. *)
Theorem C150_heating_refuted fuel n lim steps cols cells : cells <> [] ->
  (exists r, records_room fuel (more_rows true n) steps [room true n lim + 1; cols]%nat (extra_records true n lim cells) = Some r)
  <-> (steps <= room true n lim)%nat.
Proof.
  intros N. unfold records_room. split.
  - intros [r E]. destruct (room_for _ _ _ _); [|discriminate].
    destruct (forallb _ _) eqn:F; [|discriminate]. rewrite forallb_forall in F.
    destruct cells as [|c cells]; [contradiction|]. specialize (F _ (or_introl eq_refl)). cbn [nth] in F.
    apply Nat.ltb_lt in F. lia.
  - intros H. assert (L : (steps <? room true n lim + 1)%nat = true) by (apply Nat.ltb_lt; lia).
    destruct fuel; cbn [room_for nth]; rewrite L.
    + rewrite (proj2 (forallb_forall _ _)); [eexists; reflexivity|].
      intros e He. apply in_map_iff in He. destruct He as [c [<- _]]. exact L.
    + rewrite (proj2 (forallb_forall _ _)); [eexists; reflexivity|].
      intros e He. apply in_map_iff in He. destruct He as [c [<- _]]. exact L.
Qed.
Print Assumptions C150_heating_refuted.
Example C150_heating_ex :
  records_room 5 (more_rows true 2) 700 [room true 2 (10 * 100) + 1; 3]%nat [] = Some ([804; 3], [])%nat /\
  records_room 5 (more_rows true 2) 700 [room true 2 (10 * 100) + 1; 3]%nat (extra_records true 2 (10 * 100) [3]%nat) = None.
Proof. split; reflexivity. Qed.

(** ** C145, C147: cells from the end and the order of construction *)
(** Cells counted from the end, up to the first one, are those. *)
Theorem C145_from_end (cols k : nat) : (cols <> 1)%nat -> (1 <= k <= cols)%nat ->
  kept (Cell (- Z.of_nat k)) cols = Some (Some [cols - k]%nat).
Proof.
  intros N H. unfold kept. destruct (Nat.eqb_spec cols 1); [contradiction|]. cbn [columns]. unfold column.
  destruct (Z.leb_spec 0 (- Z.of_nat k)); [lia|]. destruct (Z.leb_spec (- Z.of_nat cols) (- Z.of_nat k)); [|lia].
  cbn. do 3 f_equal. lia.
Qed.
Print Assumptions C145_from_end.
Example C145_from_end_ex : kept (Cell (-1)) 20 = Some (Some [19])%nat.
Proof. reflexivity. Qed.

(** What an action needs to exist already. *)
Definition needs (a b : action) : Prop :=
  match a, b with
  | InitPart n, DoPart n' _ _ => n = n'
  | DoOpen _ _, DoPart _ _ _ | DoConnect _ _, DoPart _ _ _ | DoConnect _ _, DoOpen _ _ => True
  | DoControl _ _, DoPart _ _ _ | DoControl _ _, InitPart _ => True
  | DoControl _ _, DoOpen _ _ | DoControl _ _, DoConnect _ _ => True
  | InitControl n, DoControl n' _ => n = n'
  | _, _ => False
  end.
Definition stage (a : action) : nat :=
  match a with DoPart _ _ _ => 0 | InitPart _ => 1 | DoOpen _ _ => 2 | DoConnect _ _ => 3 | DoControl _ _ => 4
             | InitControl _ => 5 end.
(** Whatever the order of the description, nothing is used before it exists. *)
Theorem C147_before (cs : list call) l a r b : actions (describe cs) = l ++ a :: r -> needs a b -> ~ In b r.
Proof.
  assert (G : forall (ls : list (list action)) k,
    (forall j x, In x (nth j ls []) -> stage x = (k + j)%nat) ->
    forall l a r b, concat ls = l ++ a :: r -> In b r -> (stage a <= stage b)%nat).
  { induction ls as [|x ls IH]; intros k H l0 a0 r0 b0 E I; cbn [concat] in E; [destruct l0; discriminate|].
    assert (HX : forall y, In y x -> stage y = k).
    { intros y Y. specialize (H 0%nat y Y). lia. }
    assert (HS : forall y, In y (concat ls) -> (k <= stage y)%nat).
    { intros y Y. apply in_concat in Y. destruct Y as [m [M1 M2]]. destruct (In_nth _ _ [] M1) as [j [_ J]].
      specialize (H (S j) y). cbn [nth] in H. rewrite J in H. specialize (H M2). lia. }
    apply app_eq_app in E. destruct E as [m [[E1 E2]|[E1 E2]]].
    - destruct m as [|y m].
      + cbn in E2. rewrite app_nil_r in E1. subst x. apply (IH (S k)) with (l := []) (r := r0); [|symmetry; exact E2|exact I].
        intros j y Y. specialize (H (S j) y Y). lia.
      + injection E2 as <- E2. rewrite (HX a0); [|rewrite E1; apply in_or_app; right; left; reflexivity].
        rewrite E2 in I. apply in_app_or in I. destruct I as [I|I].
        * rewrite (HX b0); [lia|]. rewrite E1. apply in_or_app. right. right. exact I.
        * apply HS, I.
    - apply (IH (S k)) with (l := m) (r := r0); [|exact E2|exact I].
      intros j y Y. specialize (H (S j) y Y). lia. }
  intros E N I. set (d := describe cs) in *.
  assert (S := G [map (fun e => DoPart (fst e) (fst (snd e)) (snd (snd e))) (parts d);
    map (fun e => InitPart (fst e)) (parts d); map (fun e => DoOpen (fst e) (snd e)) (opens d);
    map (fun e => DoConnect (fst e) (snd e)) (conns d); map (fun e => DoControl (fst e) (snd e)) (ctrls d);
    map (fun e => InitControl (fst e)) (ctrls d)] 0%nat).
  assert (L : (stage a <= stage b)%nat).
  { apply S with (l := l) (r := r); [|cbn [concat]; rewrite app_nil_r; exact E|exact I].
    intros j x X. do 6 (destruct j as [|j]; [cbn [nth] in X; apply in_map_iff in X; destruct X as [e [<- _]]; reflexivity|]).
    destruct j; destruct X. }
  destruct a, b; cbn in N, L; try contradiction; lia.
Qed.
Print Assumptions C147_before.
(** All described parts, open ports, connections and controls are built, and nothing else. *)
Theorem C147_built (cs : list call) : let d := describe cs in
  (forall n gp a, In (DoPart n gp a) (actions d) <-> In (n, (gp, a)) (parts d)) /\
  (forall n, In (InitPart n) (actions d) <-> exists gp a, In (DoPart n gp a) (actions d)) /\
  (forall n a, In (DoOpen n a) (actions d) <-> In (n, a) (opens d)) /\
  (forall p q, In (DoConnect p q) (actions d) <-> In (p, q) (conns d)) /\
  (forall n a, In (DoControl n a) (actions d) <-> In (n, a) (ctrls d)) /\
  (forall n, In (InitControl n) (actions d) <-> exists a, In (DoControl n a) (actions d)).
Proof.
  cbv zeta. set (d := describe cs). clearbody d.
  assert (P : forall n gp a, In (DoPart n gp a) (actions d) <-> In (n, (gp, a)) (parts d)).
  { intros n gp a. unfold actions. rewrite !in_app_iff, !in_map_iff. split.
    - intros [[[n' [g' a']] [E I]]|[[e [E _]]|[[e [E _]]|[[e [E _]]|[[e [E _]]|[e [E _]]]]]]]; try discriminate.
      injection E as <- <- <-. exact I.
    - intros I. left. exists (n, (gp, a)). auto. }
  assert (C : forall n a, In (DoControl n a) (actions d) <-> In (n, a) (ctrls d)).
  { intros n a. unfold actions. rewrite !in_app_iff, !in_map_iff. split.
    - intros [[e [E _]]|[[e [E _]]|[[e [E _]]|[[e [E _]]|[[[n' a'] [E I]]|[e [E _]]]]]]]; try discriminate.
      injection E as <- <-. exact I.
    - intros I. do 4 right. left. exists (n, a). auto. }
  split; [exact P|]. split; [|split; [|split; [|split; [exact C|]]]].
  - intros n. setoid_rewrite P. unfold actions. rewrite !in_app_iff, !in_map_iff. split.
    + intros [[e [E _]]|[[[n' [g' a']] [E I]]|[[e [E _]]|[[e [E _]]|[[e [E _]]|[e [E _]]]]]]]; try discriminate.
      injection E as <-. eauto.
    + intros [gp [a I]]. right. left. exists (n, (gp, a)). auto.
  - intros n a. unfold actions. rewrite !in_app_iff, !in_map_iff. split.
    + intros [[e [E _]]|[[e [E _]]|[[[n' a'] [E I]]|[[e [E _]]|[[e [E _]]|[e [E _]]]]]]]; try discriminate.
      injection E as <- <-. exact I.
    + intros I. do 2 right. left. exists (n, a). auto.
  - intros p q. unfold actions. rewrite !in_app_iff, !in_map_iff. split.
    + intros [[e [E _]]|[[e [E _]]|[[e [E _]]|[[[n' a'] [E I]]|[[e [E _]]|[e [E _]]]]]]]; try discriminate.
      injection E as <- <-. exact I.
    + intros I. do 3 right. left. exists (p, q). auto.
  - intros n. setoid_rewrite C. unfold actions. rewrite !in_app_iff, !in_map_iff. split.
    + intros [[e [E _]]|[[e [E _]]|[[e [E _]]|[[e [E _]]|[[e [E _]]|[[n' a'] [E I]]]]]]]; try discriminate.
      injection E as <-. eauto.
    + intros [a I]. do 5 right. exists (n, a). auto.
Qed.
Print Assumptions C147_built.
