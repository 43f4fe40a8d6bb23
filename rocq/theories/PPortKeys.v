(** C180: the names of parts and ports are only names. *)
From Coq Require Import List String Ascii Bool.
From Verif Require Import MPortKeys SPortKeys LPortKeys.
Import ListNotations.
Local Open Scope string_scope.
Local Open Scope list_scope.

(** A key is taken apart into the names it was made of exactly for names without ";". *)
Theorem C180_key_iff : forall pa po,
  unpack (join pa po) = Some (pa, po) <-> has ";" pa = false /\ has ";" po = false.
Proof.
  intros pa po. split; [|intros [A B]; apply unpack_join; assumption].
  intros H. destruct (has ";" pa) eqn:A; [rewrite unpack_bad in H by auto; discriminate|].
  destruct (has ";" po) eqn:B; [rewrite unpack_bad in H by auto; discriminate|]. auto.
Qed.
Print Assumptions C180_key_iff.

(** Other names for the parts give the same network with the other names, whether it can be built or
    is refused, for all names without ";" and "/" which the code does not use itself. *)
Theorem C180_renaming_partial : forall f d, plain d ->
  (forall n, plain_name n -> plain_name (f n)) ->
  (forall m n, plain_name m -> plain_name n -> f m = f n -> m = n) ->
  build (rename f d) = ren_outcome f (build d).
Proof.
  intros f d Hd F1 F2. rewrite (build_plain d Hd). apply build_ren; [split; assumption | exact Hd].
Qed.
Print Assumptions C180_renaming_partial.

(** Each port of a network which can be built has the neighbour some connection gives it. *)
Theorem C180_neighbours : forall d v p q x, plain d -> build d = Ready v -> In (p, q, x) v ->
  exists p' q' r, x = Some (p', q') /\ In r (d_requests d) /\
    ((fp r, fq r) = (p, q) /\ (sp r, sq r) = (p', q') \/
     (fp r, fq r) = (p', q') /\ (sp r, sq r) = (p, q)).
Proof.
  intros d v p q x Hd B I. rewrite (build_plain d Hd) in B. unfold abuild in B.
  destruct (aadd_opens _ (d_opens d)) as [ports|n] eqn:O; [|discriminate].
  destruct (aconnect_all d _ _) as [s|o] eqn:C; [|subst o].
  - destruct (amissing (alinks s) (map fst ports)) as [|m ms] eqn:M; [|discriminate].
    inversion B; subst v; clear B. unfold aview in I.
    apply in_flat_map in I as ([n qs] & Ip & I). apply in_map_iff in I as (po & E & Iq).
    cbn [fst snd] in *. inversion E; subst n po x; clear E.
    assert (K : In (p, q) (map fst ports)).
    { apply (aopens_key _ _ _ _ O). apply aparts_key. right. exists qs. auto. }
    destruct (amissing_nil _ _ M _ K) as [[p' q'] D]. unfold aneighbour. rewrite D.
    apply (dget_none_in peqb _ _ _ apeqb) in D.
    destruct (aconnect_all_links _ _ _ _ C _ _ D) as [[]|(r & Ir & H)].
    exists p', q', r. split; [reflexivity|]. split.
    + apply in_map_iff in Ir as ([k r'] & <- & Ir). unfold apostponed in Ir.
      apply (fold_dset_in peqb ends1 (fun r => r)) in Ir as [[]|(r2 & I2 & E2)].
      inversion E2; subst. exact I2.
    + unfold ends1, ends2 in H. destruct H as [[A1 A2]|[A1 A2]]; [left|right]; auto.
  - exfalso. revert C. generalize {| alinks := []; aconn := [] |}.
    induction (map snd (apostponed (d_requests d))) as [|r rs IH]; intros s C; [discriminate|].
    cbn in C. destruct (aconnect d r s) as [s1|o] eqn:E1; [apply (IH _ C)|].
    inversion C; subst o. unfold aconnect in E1.
    repeat match goal with
    | H : (if ?b then inr _ else _) = inr _ |- _ => destruct b; [discriminate|]
    end. discriminate.
Qed.
Print Assumptions C180_neighbours.

Lemma ready_inv : forall d v, build d = Ready v ->
  exists ports s, add_opens (fold_left (fun k p => part_ports p k) (d_parts d) []) (d_opens d) = inl ports
    /\ connect_all d (map snd (postponed (d_requests d))) {| links := []; conn := [] |} = inl s
    /\ missing (links s) (map fst ports) = Some [].
Proof.
  intros d v B. unfold build in B. destruct (find _ _); [discriminate|].
  destruct (add_opens _ (d_opens d)) as [ports|n]; [|discriminate].
  destruct (connect_all d _ _) as [s|o] eqn:C; [|subst o].
  - exists ports, s. split; [reflexivity|]. split; [reflexivity|].
    destruct (missing _ _) as [[|m ms]|]; [reflexivity | discriminate | discriminate].
  - exfalso. revert C. generalize {| links := []; conn := [] |}.
    induction (map snd (postponed (d_requests d))) as [|r rs IH]; intros s C; [discriminate|].
    cbn in C. destruct (connect d r s) as [s1|o] eqn:E1; [apply (IH _ C)|].
    inversion C; subst o. unfold connect in E1.
    repeat match goal with
    | H : (if ?b then inr _ else _) = inr _ |- _ => destruct b; [discriminate|]
    end. discriminate.
Qed.

(** A network with a part or port with ";" in its name is never built, whatever is connected; the
    check of the names of parts lets it pass. *)
Theorem C180_semicolon_refuted :
  (forall d p qs q, In (p, qs) (d_parts d) -> In q qs -> has ";" p = true \/ has ";" q = true ->
    forall v, build d <> Ready v) /\
  (forall a b, has "/" a = false -> has "/" b = false -> part_name_ok (a ++ String ";" b) = true).
Proof.
  split.
  - intros d p qs q Ip Iq H v B. apply ready_inv in B as (ports & s & O & _ & M).
    assert (K : In (join p q) (map fst ports)).
    { apply (opens_key _ _ _ _ O). apply parts_key. right. exists qs. auto. }
    rewrite (missing_none _ _ _ K (unpack_bad p q H)) in M. discriminate.
  - intros a b A B. unfold part_name_ok. rewrite has_app, A. cbn [has orb]. rewrite B.
    assert (E : String.eqb (a ++ String ";" b) "BC" = false).
    { apply String.eqb_neq. intros E. assert (has ";" (a ++ String ";" b)%string = true) as F.
      { rewrite has_app. cbn. apply orb_true_r. } rewrite E in F. discriminate. }
    rewrite E. reflexivity.
Qed.
Print Assumptions C180_semicolon_refuted.

(** Ports of different parts share a key: what is connected to the one is taken for the other. *)
Theorem C180_shared_key_refuted : exists p q p' q',
  (p, q) <> (p', q') /\ part_name_ok p = true /\ part_name_ok p' = true /\
  forall r r', fp r = p -> fq r = q -> fp r' = p' -> fq r' = q' ->
    map snd (postponed [r; r']) = [r'].
Proof.
  exists "tank", "coil;in", "tank;coil", "in".
  split; [discriminate|]. split; [reflexivity|]. split; [reflexivity|].
  intros [a b c d] [a' b' c' d']. cbn [fp fq]. intros -> -> -> ->. reflexivity.
Qed.
Print Assumptions C180_shared_key_refuted.

(** A part with the name of the boundary conditions passes the check, too, but its ports are never
    found: a network with it is never built. *)
Theorem C180_boundary_refuted :
  part_name_ok "BoundaryCondition" = true /\
  forall d qs q, In ("BoundaryCondition", qs) (d_parts d) -> In q qs -> open_name_ok q = false ->
    forall v, build d <> Ready v.
Proof.
  split; [reflexivity|]. intros d qs q Ip Iq N v B.
  destruct (has ";" q) eqn:Q.
  { apply (proj1 C180_semicolon_refuted d "BoundaryCondition" qs q Ip Iq (or_intror Q) v B). }
  apply ready_inv in B as (ports & s & O & C & M).
  assert (K : In (join bc q) (map fst ports)).
  { apply (opens_key _ _ _ _ O). apply parts_key. right. exists qs. auto. }
  destruct (missing_nil _ _ M _ K) as [w D]. apply (dget_none_in String.eqb _ _ _ seqb) in D.
  destruct (proj2 (connect_all_ok _ _ _ _ C) _ _ D) as [[]|(a & b & E & T)].
  assert (U : unpack (join a b) = Some (bc, q)) by (rewrite <- E; apply unpack_join; [reflexivity | exact Q]).
  destruct (has ";" a) eqn:A; [rewrite unpack_bad in U by auto; discriminate|].
  destruct (has ";" b) eqn:Bq; [rewrite unpack_bad in U by auto; discriminate|].
  rewrite unpack_join in U by assumption. inversion U; subst a b.
  unfold port_there in T. cbn [String.eqb] in T. rewrite String.eqb_refl in T.
  unfold mem in T. apply existsb_exists in T as (n & In_ & E2). apply String.eqb_eq in E2. subst n.
  rewrite (opens_ok _ _ _ _ O In_) in N. discriminate.
Qed.
Print Assumptions C180_boundary_refuted.

(** A connection to a part with the name "p_gasb1_ff" stops in the debugger: the network is never
    built, while the same connection given from the other end is made. *)
Theorem C180_debugger_refuted :
  (forall d rs r, d_requests d = rs ++ [r] -> sp r = "p_gasb1_ff" -> forall v, build d <> Ready v) /\
  exists ps os rs r v,
    let r' := {| fp := sp r; fq := sq r; sp := fp r; sq := fq r |} in
    sp r = "p_gasb1_ff" /\
    build {| d_parts := ps; d_opens := os; d_requests := rs ++ [r] |} = Debugger /\
    build {| d_parts := ps; d_opens := os; d_requests := rs ++ [r'] |} = Ready v.
Proof.
  split.
  - intros d rs r R S1 v B. apply ready_inv in B as (ports & s & _ & C & _).
    assert (I : In r (map snd (postponed (d_requests d)))).
    { rewrite R. unfold postponed. rewrite fold_left_app. cbn [fold_left].
      generalize (fold_left (fun d r => dset String.eqb d (join (fp r) (fq r)) r) rs []).
      intros l. induction l as [|[k x] l IH]; cbn; [auto|].
      destruct (String.eqb _ k); cbn; auto. }
    apply (proj1 (connect_all_ok _ _ _ _ C) r I S1).
  - exists [("boiler", ["in"; "out"]); ("p_gasb1_ff", ["in"; "out"])], [],
      [{| fp := "p_gasb1_ff"; fq := "out"; sp := "boiler"; sq := "in" |}],
      {| fp := "boiler"; fq := "out"; sp := "p_gasb1_ff"; sq := "in" |}.
    eexists. cbn [fp fq sp sq]. split; [reflexivity|]. split; vm_compute; reflexivity.
Qed.
Print Assumptions C180_debugger_refuted.

(** ** A network with a storage, a pump and an open port *)
Definition demo : description := {|
  d_parts := [("tes", ["in"; "out"]); ("pump", ["in"; "out"])];
  d_opens := ["BC_cold"; "BC_tap"];
  d_requests := [
    {| fp := "tes"; fq := "out"; sp := "pump"; sq := "in" |};
    {| fp := "BoundaryCondition"; fq := "BC_cold"; sp := "tes"; sq := "in" |};
    {| fp := "pump"; fq := "out"; sp := "BoundaryCondition"; sq := "BC_tap" |}] |}.

Example demo_plain : plain demo.
Proof.
  assert (T : plain_name "tes") by (repeat split; try reflexivity; discriminate).
  assert (P : plain_name "pump") by (repeat split; try reflexivity; discriminate).
  split; [|split].
  - intros p [<-|[<-|[]]]; (split; [assumption|]); intros q [<-|[<-|[]]]; reflexivity.
  - intros n [<-|[<-|[]]]; reflexivity.
  - intros r [<-|[<-|[<-|[]]]]; (split; [|split; [reflexivity | split; [|reflexivity]]]); cbn;
      ((right; assumption) || (left; reflexivity)).
Qed.

Example demo_ready : build demo = Ready [
  ("tes", "in", Some ("BoundaryCondition", "BC_cold")); ("tes", "out", Some ("pump", "in"));
  ("pump", "in", Some ("tes", "out")); ("pump", "out", Some ("BoundaryCondition", "BC_tap"))].
Proof. vm_compute. reflexivity. Qed.

(** the names get a prefix: the same network *)
Definition prefix (n : string) : string := ("house_" ++ n)%string.

Example demo_prefix : build (rename prefix demo) = Ready [
  ("house_tes", "in", Some ("BoundaryCondition", "BC_cold")); ("house_tes", "out", Some ("house_pump", "in"));
  ("house_pump", "in", Some ("house_tes", "out")); ("house_pump", "out", Some ("BoundaryCondition", "BC_tap"))].
Proof.
  rewrite C180_renaming_partial.
  - rewrite demo_ready. reflexivity.
  - apply demo_plain.
  - intros n (A & B & _). unfold plain_name, prefix. rewrite !has_app, A, B.
    repeat split; try reflexivity; discriminate.
  - intros m n _ _ E. unfold prefix in E. inversion E. reflexivity.
Qed.

(** the names get a number behind ";": not built, although nothing else has changed *)
Example demo_semicolon : build (rename (fun n => n ++ ";1")%string demo) = Unpacking.
Proof. vm_compute. reflexivity. Qed.

Example demo_boundary : build (rename (fun n => if String.eqb n "tes" then "BoundaryCondition" else n) demo)
  = Refused (CPort "BoundaryCondition" "out").
Proof. vm_compute. reflexivity. Qed.
