(** Properties of the heat conduction over port connections: C70. *)
From Coq Require Import Reals List Arith Lia Lra Permutation.
From Verif Require Import MPortCond.
Import ListNotations.
Open Scope R_scope.

Lemma memb_in : forall x l, memb x l = true <-> In x l.
Proof. intros. unfold memb. destruct (in_dec Nat.eq_dec x l); split; auto; discriminate. Qed.
Lemma memb_out : forall x l, memb x l = false <-> ~ In x l.
Proof. intros. unfold memb. destruct (in_dec Nat.eq_dec x l); split; auto; try discriminate; contradiction. Qed.

(** The order: all non-numeric parts before all numeric ones. *)
Lemma order_split : forall l acc1 acc2, Forall (fun p => numeric p = false) acc1 ->
  Forall (fun p => numeric p = true) acc2 ->
  exists a b, fold_left (fun acc p => if numeric p then acc ++ [p] else p :: acc) l (acc1 ++ acc2) = a ++ b /\
    Forall (fun p => numeric p = false) a /\ Forall (fun p => numeric p = true) b /\
    Permutation (a ++ b) (l ++ acc1 ++ acc2).
Proof.
  induction l as [|p l IH]; intros a1 a2 F1 F2; cbn [fold_left].
  - exists a1, a2. auto.
  - destruct (numeric p) eqn:N.
    + rewrite <- app_assoc. destruct (IH a1 (a2 ++ [p]) F1) as (a & b & E & FA & FB & P).
      { apply Forall_app. split; [exact F2|]. constructor; auto. }
      exists a, b. split; [exact E|]. split; [exact FA|]. split; [exact FB|].
      eapply Permutation_trans; [exact P|]. rewrite !app_assoc.
      apply Permutation_sym. cbn. apply Permutation_cons_append.
    + change (p :: a1 ++ a2) with ((p :: a1) ++ a2).
      destruct (IH (p :: a1) a2) as (a & b & E & FA & FB & P); [constructor; auto|exact F2|].
      exists a, b. split; [exact E|]. split; [exact FA|]. split; [exact FB|].
      eapply Permutation_trans; [exact P|]. cbn. apply Permutation_sym, Permutation_middle.
Qed.
Lemma order : forall l, exists a b, loop_order l = a ++ b /\
  Forall (fun p => numeric p = false) a /\ Forall (fun p => numeric p = true) b /\
  Permutation (a ++ b) l.
Proof.
  intros l. destruct (order_split l [] []) as (a & b & E & FA & FB & P); try constructor.
  exists a, b. cbn in P. rewrite app_nil_r in P. auto.
Qed.

(** Own values only change at ports of non-numeric parts visited. *)
Lemma own_keep : forall w l s x, (forall p, In p l -> numeric p = false -> ~ In x (pids p)) ->
  own (fold_left (visit w) l s) x = own s x.
Proof.
  intros w. induction l as [|p l IH]; intros s x H; cbn [fold_left]; [reflexivity|].
  rewrite IH by (intros q I; apply H; right; exact I). cbn [visit own].
  destruct (numeric p) eqn:N; [reflexivity|].
  destruct (memb x (pids p)) eqn:M; [|reflexivity].
  exfalso. apply (H p (or_introl eq_refl) N). apply memb_in, M.
Qed.
Lemma own_numeric : forall w l s x, Forall (fun p => numeric p = true) l ->
  own (fold_left (visit w) l s) x = own s x.
Proof.
  intros w l s x F. apply own_keep. intros p I N. rewrite Forall_forall in F. rewrite (F p I) in N.
  discriminate.
Qed.
Lemma conn_keep : forall w l s x, (forall p, In p l -> ~ In x (pids p)) ->
  conn (fold_left (visit w) l s) x = conn s x.
Proof.
  intros w. induction l as [|p l IH]; intros s x H; cbn [fold_left]; [reflexivity|].
  rewrite IH by (intros q I; apply H; right; exact I). cbn [visit conn].
  destruct (memb x (pids p)) eqn:M; [|reflexivity].
  exfalso. apply (H p (or_introl eq_refl)). apply memb_in, M.
Qed.

(** A port belongs to one part. *)
Definition disjoint (l : list part) : Prop :=
  NoDup l /\ forall p q x, In p l -> In q l -> In x (pids p) -> In x (pids q) -> p = q.

Section Net.
Variables (w : wiring) (s : pstate) (l : list part).
Hypothesis D : disjoint l.
Let fin := port_connections w s l.

Lemma conn_numeric : forall p x, In p l -> numeric p = true -> In x (pids p) ->
  conn fin x = take w (own fin) x.
Proof.
  intros p x I N X. unfold fin, port_connections. destruct (order l) as (a & b & E & FA & FB & P).
  rewrite E, fold_left_app. set (t := fold_left (visit w) a s).
  assert (IB : In p b).
  { apply Permutation_sym in P. pose proof (Permutation_in p P I) as Q. apply in_app_or in Q.
    destruct Q as [Q|Q]; [|exact Q]. rewrite Forall_forall in FA. rewrite (FA p Q) in N. discriminate. }
  assert (OW : forall y, own (fold_left (visit w) b t) y = own t y) by (intros y; apply own_numeric, FB).
  apply in_split in IB. destruct IB as (b1 & b2 & ->).
  rewrite fold_left_app. cbn [fold_left].
  set (t1 := fold_left (visit w) b1 t).
  assert (FB1 : Forall (fun p => numeric p = true) b1) by (apply Forall_app in FB; apply FB).
  rewrite conn_keep.
  - cbn [visit conn]. replace (memb x (pids p)) with true by (symmetry; apply memb_in, X).
    unfold take. destruct (heatcond w _); [|reflexivity].
    rewrite fold_left_app in OW. cbn [fold_left] in OW. fold t1 in OW. rewrite OW. unfold t1.
    apply own_numeric, FB1.
  - intros q Iq Xq. destruct D as [ND DD].
    assert (Q : p = q).
    { apply (DD p q x I); [|exact X|exact Xq]. apply (Permutation_in q P).
      apply in_or_app. right. apply in_or_app. right. right. exact Iq. }
    subst q. assert (NB : NoDup (a ++ b1 ++ p :: b2)) by (apply (Permutation_NoDup (l := l)); [apply Permutation_sym, P|exact ND]).
    rewrite app_assoc in NB. apply NoDup_remove_2 in NB. apply NB, in_or_app. auto.
Qed.

Lemma own_numeric_fin : forall p x, In p l -> numeric p = true -> In x (pids p) ->
  own fin x = own s x.
Proof.
  intros p x I N X. unfold fin, port_connections. apply own_keep.
  intros q Iq Nq Xq. destruct (order l) as (a & b & E & FA & FB & P). rewrite E in Iq.
  destruct D as [_ DD]. pose proof (DD p q x I (Permutation_in q P Iq) X Xq). congruence.
Qed.

Lemma own_other : forall p x, In p l -> numeric p = false -> In x (pids p) ->
  (forall y, In y (pids p) -> on_bc w y = false) ->
  (forall y, In y (pids p) -> exists q, In q l /\ numeric q = true /\ In (partner w y) (pids q)) ->
  own fin x = mean_spec (map (take w (own s)) (remove Nat.eq_dec x (pids p))).
Proof.
  intros p x I N X NB HN. unfold fin, port_connections. destruct (order l) as (a & b & E & FA & FB & P).
  rewrite E, fold_left_app. rewrite own_numeric by exact FB.
  assert (IA : In p a).
  { apply Permutation_sym in P. pose proof (Permutation_in p P I) as Q. apply in_app_or in Q.
    destruct Q as [Q|Q]; [exact Q|]. rewrite Forall_forall in FB. rewrite (FB p Q) in N. discriminate. }
  apply in_split in IA. destruct IA as (a1 & a2 & ->).
  destruct D as [ND DD]. rewrite fold_left_app. cbn [fold_left].
  set (t := fold_left (visit w) a1 s).
  rewrite own_keep.
  - cbn [visit own]. rewrite N. replace (memb x (pids p)) with true by (symmetry; apply memb_in, X).
    f_equal. apply map_ext_in. intros y IY. apply in_remove in IY. destruct IY as [IY _].
    replace (memb y (pids p)) with true by (symmetry; apply memb_in, IY).
    unfold take. rewrite (NB y IY). destruct (heatcond w (partner w y)); [|reflexivity].
    destruct (HN y IY) as (q & Iq & Nq & Xq). unfold t. apply own_keep.
    intros r Ir Nr Xr. assert (In r l) by (apply (Permutation_in r P); apply in_or_app; left; apply in_or_app; auto).
    pose proof (DD q r _ Iq H Xq Xr). congruence.
  - intros q Iq _ Xq.
    assert (Q : p = q).
    { apply (DD p q x I); [|exact X|exact Xq]. apply (Permutation_in q P).
      apply in_or_app. left. apply in_or_app. right. right. exact Iq. }
    subst q. assert (NA : NoDup ((a1 ++ p :: a2) ++ b)) by (apply (Permutation_NoDup (l := l)); [apply Permutation_sym, P|exact ND]).
    rewrite <- app_assoc in NA. cbn in NA. apply NoDup_remove_2 in NA.
    apply NA, in_or_app. right. apply in_or_app. auto.
Qed.
End Net.

(** * C70 *)

(** Two directly connected ports of numeric parts see the same wall conductance. *)
Theorem C70_direct : forall w s l p q x y, disjoint l ->
  In p l -> In q l -> numeric p = true -> numeric q = true -> In x (pids p) -> In y (pids q) ->
  partner w x = y -> partner w y = x -> on_bc w x = false -> on_bc w y = false ->
  heatcond w x = true -> heatcond w y = true -> aw (own s x) <> 0 -> aw (own s y) <> 0 ->
  UA_wall (port_connections w s l) x = UA_wall (port_connections w s l) y.
Proof.
  intros w s l p q x y D Ip Iq Np Nq Xp Yq PX PY BX BY HX HY AX AY. unfold UA_wall.
  rewrite (conn_numeric w s l D p x Ip Np Xp), (conn_numeric w s l D q y Iq Nq Yq).
  unfold take. rewrite BX, BY, PX, PY, HX, HY.
  rewrite (own_numeric_fin w s l D p x Ip Np Xp), (own_numeric_fin w s l D q y Iq Nq Yq).
  destruct (Req_EM_T (aw (own s y)) 0) as [Z|_]; [contradiction|].
  destruct (Req_EM_T (aw (own s x)) 0) as [Z|_]; [contradiction|].
  rewrite (Rplus_comm (aw (own s x))), (Rplus_comm (gsp (own s y) / _)). reflexivity.
Qed.

(** Over a two-port part without cells (a pump) between two numeric parts the ports of the
    numeric parts see each other, whatever the values of the pump and the rest of the network. *)
Theorem C70_pump_partial : forall w s l n p q a b x y, disjoint l ->
  In n l -> numeric n = false -> pids n = [a; b] -> a <> b ->
  In p l -> numeric p = true -> In x (pids p) -> In q l -> numeric q = true -> In y (pids q) ->
  partner w x = a -> partner w a = x -> partner w y = b -> partner w b = y ->
  on_bc w x = false -> on_bc w y = false -> on_bc w a = false -> on_bc w b = false ->
  heatcond w x = true -> heatcond w y = true -> heatcond w a = true -> heatcond w b = true ->
  aw (own s x) <> 0 -> aw (own s y) <> 0 ->
  conn (port_connections w s l) x = own s y /\ conn (port_connections w s l) y = own s x /\
  UA_wall (port_connections w s l) x = UA_wall (port_connections w s l) y.
Proof.
  intros w s l n p q a b x y D In_ Nn PN AB Ip Np Xp Iq Nq Yq PX PA PY PB BX BY BA BB HX HY HA HB AX AY.
  assert (MS : forall v, mean_spec [v] = v).
  { intros [v1 v2 v3 v4]. unfold mean_spec, mean_by. cbn. f_equal; field. }
  assert (OA : own (port_connections w s l) a = own s y).
  { rewrite (own_other w s l D n a In_ Nn).
    - rewrite PN. cbn [remove]. destruct (Nat.eq_dec a a); [|contradiction].
      destruct (Nat.eq_dec a b); [contradiction|]. cbn [map]. rewrite MS. unfold take.
      rewrite BB, PB, HY. reflexivity.
    - rewrite PN. left. reflexivity.
    - intros z Iz. rewrite PN in Iz. destruct Iz as [<-|[<-|[]]]; assumption.
    - intros z Iz. rewrite PN in Iz. destruct Iz as [<-|[<-|[]]]; [exists p|exists q];
        rewrite ?PA, ?PB; auto. }
  assert (OB : own (port_connections w s l) b = own s x).
  { rewrite (own_other w s l D n b In_ Nn).
    - rewrite PN. cbn [remove]. destruct (Nat.eq_dec b a); [congruence|].
      destruct (Nat.eq_dec b b); [|contradiction]. cbn [map]. rewrite MS. unfold take.
      rewrite BA, PA, HX. reflexivity.
    - rewrite PN. right. left. reflexivity.
    - intros z Iz. rewrite PN in Iz. destruct Iz as [<-|[<-|[]]]; assumption.
    - intros z Iz. rewrite PN in Iz. destruct Iz as [<-|[<-|[]]]; [exists p|exists q];
        rewrite ?PA, ?PB; auto. }
  assert (CX : conn (port_connections w s l) x = own s y).
  { rewrite (conn_numeric w s l D p x Ip Np Xp). unfold take. rewrite BX, PX, HA. exact OA. }
  assert (CY : conn (port_connections w s l) y = own s x).
  { rewrite (conn_numeric w s l D q y Iq Nq Yq). unfold take. rewrite BY, PY, HB. exact OB. }
  split; [exact CX|]. split; [exact CY|]. unfold UA_wall. rewrite CX, CY.
  rewrite (own_numeric_fin w s l D p x Ip Np Xp), (own_numeric_fin w s l D q y Iq Nq Yq).
  destruct (Req_EM_T (aw (own s y)) 0) as [Z|_]; [contradiction|].
  destruct (Req_EM_T (aw (own s x)) 0) as [Z|_]; [contradiction|].
  rewrite (Rplus_comm (aw (own s x))), (Rplus_comm (gsp (own s y) / _)). reflexivity.
Qed.

(** A part without cells and any number of ports passes on, at each port, the means over the
    partners of its other ports. *)
Theorem C70_mixer : forall w s l n p x a, disjoint l ->
  In n l -> numeric n = false -> In a (pids n) ->
  (forall y, In y (pids n) -> on_bc w y = false /\ heatcond w (partner w y) = true /\
     exists q, In q l /\ numeric q = true /\ In (partner w y) (pids q)) ->
  In p l -> numeric p = true -> In x (pids p) -> partner w x = a -> on_bc w x = false ->
  heatcond w a = true ->
  conn (port_connections w s l) x =
    mean_spec (map (fun y => own s (partner w y)) (remove Nat.eq_dec a (pids n))).
Proof.
  intros w s l n p x a D In_ Nn An H Ip Np Xp PX BX HA.
  rewrite (conn_numeric w s l D p x Ip Np Xp). unfold take at 1. rewrite BX, PX, HA.
  rewrite (own_other w s l D n a In_ Nn An).
  - f_equal. apply map_ext_in. intros y Iy. apply in_remove in Iy. destruct Iy as [Iy _].
    destruct (H y Iy) as (B & C & _). unfold take. rewrite B, C. reflexivity.
  - intros y Iy. apply (H y Iy).
  - intros y Iy. apply (H y Iy).
Qed.

(** Two parts without cells in a row break the symmetry: pipe 0 (port 0), pumps (ports 1, 2 and
    3, 4), pipe (port 5).  The first pipe sees the second one, but the second pipe sees the
    initial values of the first pump, so that the conductances differ. *)
Definition sp (a : R) : pspec := {| aw := a; af := a; gsp := 1; lam := 1 |}.
Definition chain : wiring :=
  {| partner := fun x => nth x [1; 0; 3; 2; 5; 4]%nat x; on_bc := fun _ => false;
     heatcond := fun _ => true |}.
Definition specs0 : pstate :=
  {| own := fun x => nth x [sp 4; sp 1; sp 1; sp 1; sp 1; sp 2] (sp 0); conn := fun _ => pzero |}.
Definition chain_parts : list part :=
  [{| numeric := true; pids := [0%nat] |}; {| numeric := false; pids := [1; 2]%nat |};
   {| numeric := false; pids := [3; 4]%nat |}; {| numeric := true; pids := [5%nat] |}].
Lemma chain_disjoint : disjoint chain_parts.
Proof.
  split.
  - repeat constructor; cbn; intuition discriminate.
  - intros p q x P Q X Y. cbn in P, Q.
    repeat (destruct P as [<-|P]; [|]); try contradiction;
    repeat (destruct Q as [<-|Q]; [|]); try contradiction; try reflexivity;
    cbn in X, Y; exfalso; lia.
Qed.
Theorem C70_chain_refuted :
  conn (port_connections chain specs0 chain_parts) 0 = sp 2 /\
  conn (port_connections chain specs0 chain_parts) 5 = sp 1 /\
  UA_wall (port_connections chain specs0 chain_parts) 0 = 3 /\
  UA_wall (port_connections chain specs0 chain_parts) 5 = 3 / 2.
Proof.
  assert (MS : forall v, mean_spec [sp v] = sp v).
  { intros v. unfold mean_spec, mean_by, sp. cbn. f_equal; field. }
  assert (C0 : conn (port_connections chain specs0 chain_parts) 0 = sp 2).
  { cbn [port_connections chain_parts loop_order fold_left numeric pids app visit own conn memb].
    cbn. rewrite !MS. reflexivity. }
  assert (C5 : conn (port_connections chain specs0 chain_parts) 5 = sp 1).
  { cbn. rewrite !MS. reflexivity. }
  split; [exact C0|]. split; [exact C5|]. unfold UA_wall. rewrite C0, C5.
  change (own (port_connections chain specs0 chain_parts) 0%nat) with (sp 4).
  change (own (port_connections chain specs0 chain_parts) 5%nat) with (sp 2).
  cbn [aw gsp lam sp]. destruct (Req_EM_T 2 0); [lra|]. destruct (Req_EM_T 1 0); [lra|].
  split; field.
Qed.

(** Case meeting the hypotheses: pipe, pump, pipe. *)
Definition one : wiring :=
  {| partner := fun x => nth x [1; 0; 3; 2]%nat x; on_bc := fun _ => false;
     heatcond := fun _ => true |}.
Definition one_parts : list part :=
  [{| numeric := true; pids := [0%nat] |}; {| numeric := false; pids := [1; 2]%nat |};
   {| numeric := true; pids := [3%nat] |}].
Example ex_pump :
  let f := port_connections one {| own := fun x => nth x [sp 4; sp 1; sp 1; sp 2] (sp 0);
                                   conn := fun _ => pzero |} one_parts in
  conn f 0%nat = sp 2 /\ conn f 3%nat = sp 4 /\ UA_wall f 0%nat = UA_wall f 3%nat.
Proof.
  assert (D : disjoint one_parts).
  { split; [repeat constructor; cbn; intuition discriminate|].
    intros p q x P Q X Y. cbn in P, Q.
    repeat (destruct P as [<-|P]; [|]); try contradiction;
    repeat (destruct Q as [<-|Q]; [|]); try contradiction; try reflexivity;
    cbn in X, Y; exfalso; lia. }
  intros f.
  apply (C70_pump_partial one {| own := fun x => nth x [sp 4; sp 1; sp 1; sp 2] (sp 0);
    conn := fun _ => pzero |} one_parts {| numeric := false; pids := [1; 2]%nat |}
    {| numeric := true; pids := [0%nat] |} {| numeric := true; pids := [3%nat] |} 1 2 0 3 D);
    cbn; auto; lra || tauto.
Qed.

Print Assumptions C70_direct.
Print Assumptions C70_pump_partial.
Print Assumptions C70_mixer.
(** For a valve or connector with three ports these are the mean values of the two parts on its other
    ports. *)
Theorem C70_mixer_mean : forall w s l n p x a b c, disjoint l ->
  In n l -> numeric n = false -> pids n = [a; b; c] -> NoDup [a; b; c] ->
  (forall y, In y [a; b; c] -> on_bc w y = false /\ heatcond w (partner w y) = true /\
     exists q, In q l /\ numeric q = true /\ In (partner w y) (pids q)) ->
  In p l -> numeric p = true -> In x (pids p) -> partner w x = a -> on_bc w x = false ->
  heatcond w a = true ->
  let v := conn (port_connections w s l) x in
  let y := own s (partner w b) in let z := own s (partner w c) in
  aw v = (aw y + aw z) / 2 /\ af v = (af y + af z) / 2 /\ gsp v = (gsp y + gsp z) / 2 /\
  lam v = (lam y + lam z) / 2.
Proof.
  intros w s l n p x a b c D In_ Nn Pn ND H Ip Np Xp PX BX HA.
  rewrite (C70_mixer w s l n p x a D In_ Nn); try assumption;
    [|rewrite Pn; left; reflexivity|rewrite Pn; exact H].
  rewrite Pn. inversion ND as [|? ? N1 N2]; subst. inversion N2 as [|? ? N3 N4]; subst. cbn in N1, N3.
  cbn [remove]. destruct (Nat.eq_dec (partner w x) (partner w x)) as [_|X]; [|congruence].
  destruct (Nat.eq_dec (partner w x) b) as [X|_]; [exfalso; auto|].
  destruct (Nat.eq_dec (partner w x) c) as [X|_]; [exfalso; auto|].
  unfold mean_spec, mean_by. cbn. repeat split; field.
Qed.
Print Assumptions C70_mixer_mean.
(** Next to a boundary condition nothing is conducted into the other part: the port sees itself; next to a part
    which does not conduct, the wall conducts nothing. *)
Theorem C70_insulated : forall w s l p x, disjoint l -> In p l -> numeric p = true -> In x (pids p) ->
  on_bc w x = false -> heatcond w (partner w x) = false -> UA_wall (port_connections w s l) x = 0.
Proof.
  intros w s l p x D Ip Np Xp BX H. unfold UA_wall. rewrite (conn_numeric w s l D p x Ip Np Xp).
  unfold take. rewrite BX, H. cbn [aw pzero]. destruct (Req_EM_T 0 0); [reflexivity|contradiction].
Qed.
Print Assumptions C70_insulated.
Print Assumptions C70_chain_refuted.
