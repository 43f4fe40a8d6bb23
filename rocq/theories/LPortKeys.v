(** Keys of ports: joining and splitting, and the connections with pairs for keys. *)
From Coq Require Import List String Ascii Bool Lia.
From Verif Require Import MPortKeys SPortKeys.
Import ListNotations.
Local Open Scope string_scope.
Local Open Scope list_scope.

Lemma has_join : forall pa po, has ";" (join pa po) = true.
Proof.
  unfold join. induction pa; intros; [reflexivity|]. cbn [append has].
  rewrite IHpa. apply orb_true_r.
Qed.

Lemma has_app : forall c a b, has c (a ++ b)%string = has c a || has c b.
Proof. induction a; intros; cbn; [reflexivity|]. rewrite IHa. apply orb_assoc. Qed.

Lemma split_none : forall s, has ";" s = false -> split s = [s].
Proof.
  induction s; intros H; [reflexivity|]. cbn [has] in H. apply orb_false_iff in H as [A B].
  cbn [split]. rewrite A, IHs by exact B. reflexivity.
Qed.

Lemma split_length : forall s, (1 <= List.length (split s))%nat.
Proof.
  destruct s; cbn [split]; [cbn; lia|]. destruct (Ascii.eqb a ";"); [cbn; lia|].
  destruct (split s); cbn; lia.
Qed.

Lemma split_some : forall s, has ";" s = true -> (2 <= List.length (split s))%nat.
Proof.
  induction s; intros H; [discriminate|]. cbn [has] in H. cbn [split].
  destruct (Ascii.eqb a ";") eqn:E.
  - cbn. pose proof (split_length s). lia.
  - apply IHs in H. destruct (split s); cbn in *; lia.
Qed.

Lemma split_join : forall pa po, has ";" pa = false -> split (join pa po) = pa :: split po.
Proof.
  unfold join. induction pa; intros po H; [reflexivity|].
  cbn [has] in H. apply orb_false_iff in H as [A B]. cbn [append split]. rewrite A, IHpa by exact B.
  reflexivity.
Qed.

Lemma split_join_length : forall pa po,
  List.length (split (join pa po)) = (List.length (split pa) + List.length (split po))%nat.
Proof.
  unfold join. induction pa; intros po; [reflexivity|]. cbn [append split].
  destruct (Ascii.eqb a ";"); [cbn [List.length]; rewrite IHpa; lia|].
  specialize (IHpa po). pose proof (split_length pa).
  destruct (split pa); cbn in H; [lia|].
  destruct (split (pa ++ String ";" po)%string); cbn in IHpa |- *; lia.
Qed.

Lemma unpack_join : forall pa po, has ";" pa = false -> has ";" po = false ->
  unpack (join pa po) = Some (pa, po).
Proof. intros. unfold unpack. rewrite split_join, split_none by assumption. reflexivity. Qed.

Lemma unpack_bad : forall pa po, has ";" pa = true \/ has ";" po = true -> unpack (join pa po) = None.
Proof.
  intros pa po H. unfold unpack. pose proof (split_join_length pa po) as L.
  pose proof (split_length pa). pose proof (split_length po).
  assert (3 <= List.length (split (join pa po)))%nat as G.
  { destruct H as [H|H]; apply split_some in H; lia. }
  destruct (split (join pa po)) as [|x [|y [|z t]]]; cbn in G; try lia; reflexivity.
Qed.

Lemma join_inj : forall a b c d, has ";" a = false -> has ";" c = false ->
  has ";" b = false -> has ";" d = false -> join a b = join c d -> a = c /\ b = d.
Proof.
  intros a b c d A C B D E. pose proof (unpack_join a b A B) as U.
  rewrite E, (unpack_join c d C D) in U. inversion U; subst; split; reflexivity.
Qed.

(** ** Dictionaries *)
Lemma dset_map : forall {K1 K2 V1 V2} (e1 : K1 -> K1 -> bool) (e2 : K2 -> K2 -> bool)
    (g : K1 -> K2) (h : V1 -> V2) d k v,
  (forall k', In k' (map fst d) -> e2 (g k) (g k') = e1 k k') ->
  dset e2 (map (fun x => (g (fst x), h (snd x))) d) (g k) (h v)
  = map (fun x => (g (fst x), h (snd x))) (dset e1 d k v).
Proof.
  intros. induction d as [|[k' v'] d IH]; [reflexivity|]. cbn [map dset fst snd].
  rewrite H by (left; reflexivity). destruct (e1 k k'); [reflexivity|].
  cbn [map fst snd]. f_equal. apply IH. intros; apply H; right; assumption.
Qed.

Lemma dget_map : forall {K1 K2 V1 V2} (e1 : K1 -> K1 -> bool) (e2 : K2 -> K2 -> bool)
    (g : K1 -> K2) (h : V1 -> V2) d k,
  (forall k', In k' (map fst d) -> e2 (g k) (g k') = e1 k k') ->
  dget e2 (map (fun x => (g (fst x), h (snd x))) d) (g k) = option_map h (dget e1 d k).
Proof.
  intros. induction d as [|[k' v'] d IH]; [reflexivity|]. cbn [map dget fst snd].
  rewrite H by (left; reflexivity). destruct (e1 k k'); [reflexivity|].
  apply IH. intros; apply H; right; assumption.
Qed.

Lemma dset_in : forall {K V} (e : K -> K -> bool) (d : list (K * V)) k v x,
  In x (dset e d k v) -> x = (k, v) \/ In x d.
Proof.
  induction d as [|[k' v'] d IH]; intros k v x; cbn.
  - intros [H|[]]. left; auto.
  - destruct (e k k'); cbn; intros [H|H]; auto. destruct (IH _ _ _ H); auto.
Qed.

Lemma dset_key_in : forall {K V} (e : K -> K -> bool) (d : list (K * V)) k v x,
  (forall a b, e a b = true -> a = b) ->
  In x (map fst d) \/ x = k -> In x (map fst (dset e d k v)).
Proof.
  intros K V e d k v x He. induction d as [|[k' v'] d IH]; cbn.
  - intros [[]|H]; auto.
  - intros H. destruct (e k k') eqn:E; cbn.
    + apply He in E. subst k'. destruct H as [[H|H]|H]; auto.
    + destruct H as [[H|H]|H]; auto.
Qed.

(** ** The same with pairs for keys *)
Definition pk := (string * string)%type.
Definition peqb (x y : pk) : bool := String.eqb (fst x) (fst y) && String.eqb (snd x) (snd y).

Lemma peqb_spec : forall x y, peqb x y = true <-> x = y.
Proof.
  intros [a b] [c d]. unfold peqb. cbn. rewrite andb_true_iff, !String.eqb_eq.
  split; [intros [-> ->]; reflexivity | intros H; inversion H; auto].
Qed.

Definition ends1 (r : request) : pk := (fp r, fq r).
Definition ends2 (r : request) : pk := (sp r, sq r).

Definition apostponed (rs : list request) : list (pk * request) :=
  fold_left (fun d r => dset peqb d (ends1 r) r) rs [].
Definition apart_ports (p : string * list string) (d : list (pk * unit)) : list (pk * unit) :=
  fold_left (fun d po => dset peqb d (fst p, po) tt) (snd p) d.
Fixpoint aadd_opens (d : list (pk * unit)) (l : list string) : list (pk * unit) + string :=
  match l with
  | [] => inl d
  | n :: r => if negb (open_name_ok n) then inr n else aadd_opens (dset peqb d (bc, n) tt) r
  end.
Record astate := { alinks : list (pk * pk); aconn : list pk }.
Definition aconnect (d : description) (r : request) (s : astate) : astate + outcome :=
  let isbc p := String.eqb p bc in
  let known p := isbc p || mem p (map fst (d_parts d)) in
  if negb (known (fp r)) then inr (Refused (CUnknown (fp r)))
  else if negb (known (sp r)) then inr (Refused (CUnknown (sp r)))
  else if negb (isbc (fp r)) && memp (fp r) (fq r) (aconn s) then inr (Refused (CTaken (fp r) (fq r)))
  else if negb (isbc (sp r)) && memp (sp r) (sq r) (aconn s) then inr (Refused (CTaken (sp r) (sq r)))
  else if negb (port_there d (fp r) (fq r)) then inr (Refused (CPort (fp r) (fq r)))
  else if negb (port_there d (sp r) (sq r)) then inr (Refused (CPort (sp r) (sq r)))
  else
    let l := dset peqb (alinks s) (ends1 r) (ends2 r) in
    let l := dset peqb l (ends2 r) (ends1 r) in
    let c := if isbc (fp r) then aconn s else aconn s ++ [(fp r, fq r)] in
    let c := if isbc (sp r) then c else c ++ [(sp r, sq r)] in
    inl {| alinks := l; aconn := c |}.
Fixpoint aconnect_all (d : description) (rs : list request) (s : astate) : astate + outcome :=
  match rs with
  | [] => inl s
  | r :: t => match aconnect d r s with inl s' => aconnect_all d t s' | inr o => inr o end
  end.
Fixpoint amissing (l : list (pk * pk)) (ports : list pk) : list pk :=
  match ports with
  | [] => []
  | k :: r => match dget peqb l k with Some _ => amissing l r | None => k :: amissing l r end
  end.
Definition aneighbour (l : list (pk * pk)) (pa po : string) : option pk := dget peqb l (pa, po).
Definition aview (d : description) (l : list (pk * pk)) :=
  flat_map (fun p => map (fun po => (fst p, po, aneighbour l (fst p) po)) (snd p)) (d_parts d).
Definition abuild (d : description) : outcome :=
  match aadd_opens (fold_left (fun k p => apart_ports p k) (d_parts d) []) (d_opens d) with
  | inr n => Refused (CPart n)
  | inl ports =>
      match aconnect_all d (map snd (apostponed (d_requests d))) {| alinks := []; aconn := [] |} with
      | inr o => o
      | inl s =>
          match amissing (alinks s) (map fst ports) with
          | [] => Ready (aview d (alinks s))
          | m => Refused (COpen m)
          end
      end
  end.

Definition gkey (x : pk) : Prop := plain_end (fst x) /\ plain_port (snd x).
Definition enc f (x : pk) : string := join (ren f (fst x)) (snd x).

Section Rename.
Context (f : string -> string) (Hf : good f).

Lemma ren_bc : ren f bc = bc.
Proof. reflexivity. Qed.

Lemma ren_plain : forall n, plain_name n -> ren f n = f n.
Proof.
  intros n (_ & _ & _ & H & _). unfold ren. apply String.eqb_neq in H. rewrite H. reflexivity.
Qed.

Lemma ren_end : forall n, plain_end n -> plain_end (ren f n).
Proof.
  intros n [->|H]; [left; reflexivity|]. rewrite ren_plain by exact H. right. apply Hf. exact H.
Qed.

Lemma end_semi : forall n, plain_end n -> has ";" n = false.
Proof. intros n [->|(H & _)]; [reflexivity | exact H]. Qed.

Lemma ren_inj : forall m n, plain_end m -> plain_end n -> ren f m = ren f n -> m = n.
Proof.
  intros m n [->|Hm] [->|Hn] E; try reflexivity.
  - rewrite (ren_plain n Hn) in E. destruct (proj1 Hf n Hn) as (_ & _ & _ & N & _).
    exfalso. apply N. symmetry. exact E.
  - rewrite (ren_plain m Hm) in E. destruct (proj1 Hf m Hm) as (_ & _ & _ & N & _).
    exfalso. apply N. exact E.
  - rewrite !ren_plain in E by assumption. apply Hf; assumption.
Qed.

Lemma ren_eqb : forall m n, plain_end m -> plain_end n ->
  String.eqb (ren f m) (ren f n) = String.eqb m n.
Proof.
  intros m n Hm Hn. destruct (String.eqb m n) eqn:E.
  - apply String.eqb_eq in E. subst. apply String.eqb_refl.
  - apply String.eqb_neq in E. apply String.eqb_neq. intros A. apply E. apply ren_inj; assumption.
Qed.

Lemma enc_eqb : forall x y, gkey x -> gkey y -> String.eqb (enc f x) (enc f y) = peqb x y.
Proof.
  intros [a b] [c d] [A B] [C D]. cbn in *. unfold enc. cbn.
  destruct (peqb (a, b) (c, d)) eqn:E.
  - apply peqb_spec in E. inversion E; subst. apply String.eqb_refl.
  - apply String.eqb_neq. intros J. apply join_inj in J as [J1 J2];
      try (apply end_semi; apply ren_end; assumption); try assumption.
    apply ren_inj in J1; [|assumption..]. subst.
    rewrite (proj2 (peqb_spec _ _) eq_refl) in E. discriminate.
Qed.

Lemma isbc_ren : forall n, plain_end n -> String.eqb (ren f n) bc = String.eqb n bc.
Proof. intros. rewrite <- ren_bc at 1. apply ren_eqb; [assumption | left; reflexivity]. Qed.

Lemma enc_unpack : forall x, gkey x -> unpack (enc f x) = Some (ren_pair f x).
Proof.
  intros x [A B]. unfold enc. rewrite unpack_join; [reflexivity | | exact B].
  apply end_semi, ren_end, A.
Qed.

Lemma mem_ren : forall n l, plain_end n -> (forall m, In m l -> plain_name m) ->
  mem (ren f n) (map f l) = mem n l.
Proof.
  intros n l Hn. induction l as [|m l IH]; intros H; [reflexivity|]. unfold mem. cbn.
  rewrite <- (ren_plain m) by (apply H; left; reflexivity).
  rewrite ren_eqb by (try assumption; right; apply H; left; reflexivity).
  f_equal. apply IH. intros; apply H; right; assumption.
Qed.

Lemma memp_ren : forall p q l, plain_end p -> (forall x, In x l -> gkey x) ->
  memp (ren f p) q (map (ren_pair f) l) = memp p q l.
Proof.
  intros p q l Hp. induction l as [|m l IH]; intros H; [reflexivity|]. unfold memp. cbn.
  rewrite ren_eqb by (try assumption; apply (H m); left; reflexivity).
  f_equal. apply IH. intros; apply H; right; assumption.
Qed.

Lemma dget_parts : forall n (l : list (string * list string)), plain_end n ->
  (forall m, In m l -> plain_name (fst m)) ->
  dget String.eqb (map (fun p => (f (fst p), snd p)) l) (ren f n) = dget String.eqb l n.
Proof.
  intros n l Hn. induction l as [|[m v] l IH]; intros H; [reflexivity|]. cbn.
  pose proof (H _ (or_introl eq_refl)) as Hm. cbn in Hm.
  rewrite <- (ren_plain m) by exact Hm.
  rewrite ren_eqb by (try assumption; right; assumption).
  destruct (String.eqb n m); [reflexivity|]. apply IH. intros; apply H; right; assumption.
Qed.

Context (d : description) (Hd : plain d).

Lemma port_there_ren : forall p q, plain_end p ->
  port_there (rename f d) (ren f p) q = port_there d p q.
Proof.
  intros p q Hp. unfold port_there. rewrite isbc_ren by exact Hp.
  destruct (String.eqb p bc); [reflexivity|]. cbn [rename d_parts].
  rewrite dget_parts by (try assumption; intros m Hm; apply Hd; exact Hm). reflexivity.
Qed.

Definition st (s : astate) : cstate :=
  {| links := map (fun x => (enc f (fst x), enc f (snd x))) (alinks s);
     conn := map (ren_pair f) (aconn s) |}.
Definition wf (s : astate) : Prop :=
  (forall x, In x (alinks s) -> gkey (fst x) /\ gkey (snd x)) /\ (forall x, In x (aconn s) -> gkey x).
Definition lift {A B} (h : A -> B) (x : A + outcome) : B + outcome :=
  match x with inl a => inl (h a) | inr o => inr (ren_outcome f o) end.

Lemma gasb_ren : forall n, plain_end n -> String.eqb (ren f n) "p_gasb1_ff" = false.
Proof.
  intros n [->|H]; [reflexivity|]. rewrite ren_plain by exact H.
  apply String.eqb_neq. apply (proj1 Hf n H).
Qed.

Lemma wf_dset : forall l k v, (forall x, In x l -> gkey (fst x) /\ gkey (snd x)) ->
  gkey k -> gkey v -> forall x, In x (dset peqb l k v) -> gkey (fst x) /\ gkey (snd x).
Proof. intros l k v H Hk Hv x I. apply dset_in in I as [->|I]; auto. Qed.

Lemma connect_ren : forall r s, plain_request r -> wf s ->
  connect (rename f d) (ren_request f r) (st s) = lift st (aconnect d r s)
  /\ (forall s', aconnect d r s = inl s' -> wf s').
Proof.
  intros r s (A & B & C & D) [W1 W2].
  assert (G1 : gkey (ends1 r)) by (split; assumption).
  assert (G2 : gkey (ends2 r)) by (split; assumption).
  unfold connect, aconnect. cbn [ren_request fp fq sp sq].
  assert (M : map fst (d_parts (rename f d)) = map f (map fst (d_parts d))).
  { cbn [rename d_parts]. rewrite !map_map. reflexivity. }
  rewrite M, !isbc_ren, !mem_ren
    by (try assumption; intros m Hm; apply in_map_iff in Hm as (x & <- & Hx); apply Hd; exact Hx).
  rewrite gasb_ren by assumption. cbn [st conn links].
  rewrite !memp_ren, !port_there_ren by assumption.
  destruct (negb (String.eqb (fp r) bc || mem (fp r) (map fst (d_parts d))));
    [split; [reflexivity | discriminate]|].
  destruct (negb (String.eqb (sp r) bc || mem (sp r) (map fst (d_parts d))));
    [split; [reflexivity | discriminate]|].
  destruct (negb (String.eqb (fp r) bc) && memp (fp r) (fq r) (aconn s));
    [split; [reflexivity | discriminate]|].
  destruct (negb (String.eqb (sp r) bc) && memp (sp r) (sq r) (aconn s));
    [split; [reflexivity | discriminate]|].
  destruct (negb (port_there d (fp r) (fq r))); [split; [reflexivity | discriminate]|].
  destruct (negb (port_there d (sp r) (sq r))); [split; [reflexivity | discriminate]|].
  split.
  - cbn [lift]. unfold st. cbn [alinks aconn]. f_equal. f_equal.
    + change (join (ren f (fp r)) (fq r)) with (enc f (ends1 r)).
      change (join (ren f (sp r)) (sq r)) with (enc f (ends2 r)).
      rewrite (dset_map peqb String.eqb (enc f) (enc f)), (dset_map peqb String.eqb (enc f) (enc f)).
      * reflexivity.
      * intros k' Hk. apply in_map_iff in Hk as (x & <- & Hx).
        apply enc_eqb; [exact G2 | apply (wf_dset _ _ _ W1 G1 G2 x Hx)].
      * intros k' Hk. apply in_map_iff in Hk as (x & <- & Hx).
        apply enc_eqb; [exact G1 | apply (W1 x Hx)].
    + destruct (String.eqb (fp r) bc), (String.eqb (sp r) bc);
        rewrite ?map_app; reflexivity.
  - intros s' E. inversion E; subst; clear E. split; cbn [alinks aconn].
    + apply wf_dset; [apply wf_dset; assumption | assumption..].
    + intros x Hx. destruct (String.eqb (fp r) bc), (String.eqb (sp r) bc);
        rewrite ?in_app_iff in Hx; cbn in Hx;
        repeat (destruct Hx as [Hx|Hx]); try (subst x; assumption); try contradiction; auto.
Qed.

Lemma connect_all_ren : forall rs s, (forall r, In r rs -> plain_request r) -> wf s ->
  connect_all (rename f d) (map (ren_request f) rs) (st s) = lift st (aconnect_all d rs s)
  /\ (forall s', aconnect_all d rs s = inl s' -> wf s').
Proof.
  induction rs as [|r rs IH]; intros s H W.
  - split; [reflexivity|]. intros s' E. inversion E; subst. exact W.
  - cbn [map connect_all aconnect_all].
    destruct (connect_ren r s (H r (or_introl eq_refl)) W) as [-> W'].
    destruct (aconnect d r s) as [s1|o] eqn:E; cbn [lift].
    + apply IH; [intros; apply H; right; assumption | apply W'; reflexivity].
    + split; [reflexivity | discriminate].
Qed.

Lemma postponed_ren : forall rs acc, (forall r, In r rs -> plain_request r) ->
  (forall x, In x acc -> gkey (fst x) /\ plain_request (snd x)) ->
  fold_left (fun d r => dset String.eqb d (join (fp r) (fq r)) r) (map (ren_request f) rs)
    (map (fun x => (enc f (fst x), ren_request f (snd x))) acc)
  = map (fun x => (enc f (fst x), ren_request f (snd x)))
      (fold_left (fun d r => dset peqb d (ends1 r) r) rs acc)
  /\ (forall x, In x (fold_left (fun d r => dset peqb d (ends1 r) r) rs acc) ->
        plain_request (snd x)).
Proof.
  induction rs as [|r rs IH]; intros acc H W.
  - split; [reflexivity|]. intros x Hx. apply (W x Hx).
  - cbn [map fold_left]. pose proof (H r (or_introl eq_refl)) as Hr.
    assert (G1 : gkey (ends1 r)) by (split; apply Hr).
    change (join (fp (ren_request f r)) (fq (ren_request f r))) with (enc f (ends1 r)).
    rewrite (dset_map peqb String.eqb (enc f) (ren_request f)).
    + apply IH; [intros; apply H; right; assumption|].
      intros x Hx. apply dset_in in Hx as [->|Hx]; [split; assumption | apply W; exact Hx].
    + intros k' Hk. apply in_map_iff in Hk as (x & <- & Hx).
      apply enc_eqb; [exact G1 | apply (W x Hx)].
Qed.

Definition pe (x : pk * unit) : string * unit := (enc f (fst x), snd x).
Definition wfp (l : list (pk * unit)) : Prop := forall x, In x l -> gkey (fst x).

Lemma pe_dset : forall l k, wfp l -> gkey k ->
  dset String.eqb (map pe l) (enc f k) tt = map pe (dset peqb l k tt) /\ wfp (dset peqb l k tt).
Proof.
  intros l k W K. split.
  - unfold pe. apply (dset_map peqb String.eqb (enc f) (fun x => x)).
    intros k' Hk. apply in_map_iff in Hk as (x & <- & Hx). apply enc_eqb; [exact K | apply W; exact Hx].
  - intros x Hx. apply dset_in in Hx as [->|Hx]; [exact K | apply W; exact Hx].
Qed.

Lemma part_ports_ren : forall p, plain_name (fst p) -> (forall q, In q (snd p) -> plain_port q) ->
  forall l, wfp l -> part_ports (f (fst p), snd p) (map pe l) = map pe (apart_ports p l)
  /\ wfp (apart_ports p l).
Proof.
  intros [n qs] Hn. unfold part_ports, apart_ports. cbn [fst snd] in *.
  induction qs as [|q qs IH]; intros H l W; [split; [reflexivity | exact W]|].
  cbn [fold_left]. rewrite <- (ren_plain n) by exact Hn.
  change (join (ren f n) q) with (enc f (n, q)).
  destruct (pe_dset l (n, q) W) as [-> W']; [split; [right; exact Hn | apply H; left; reflexivity]|].
  rewrite (ren_plain n) by exact Hn.
  apply IH; [intros; apply H; right; assumption | exact W'].
Qed.

Lemma parts_ren : forall ps, (forall p, In p ps -> In p (d_parts d)) -> forall l, wfp l ->
  fold_left (fun k p => part_ports p k) (map (fun p => (f (fst p), snd p)) ps) (map pe l)
  = map pe (fold_left (fun k p => apart_ports p k) ps l)
  /\ wfp (fold_left (fun k p => apart_ports p k) ps l).
Proof.
  induction ps as [|p ps IH]; intros H l W; [split; [reflexivity | exact W]|].
  cbn [map fold_left].
  destruct (proj1 Hd p (H p (or_introl eq_refl))) as [P1 P2].
  destruct (part_ports_ren p P1 P2 l W) as [-> W'].
  apply IH; [intros; apply H; right; assumption | exact W'].
Qed.

Lemma no_key : forall n l, plain_port n -> dget String.eqb (map pe l) n = None.
Proof.
  intros n l Hn. induction l as [|x l IH]; [reflexivity|]. cbn.
  destruct (String.eqb n (enc f (fst x))) eqn:E; [|exact IH].
  apply String.eqb_eq in E. subst n. unfold plain_port, enc in Hn. rewrite has_join in Hn. discriminate.
Qed.

Lemma opens_ren : forall os, (forall n, In n os -> plain_port n) -> forall l, wfp l ->
  add_opens (map pe l) os
  = match aadd_opens l os with inl l' => inl (map pe l') | inr n => inr n end
  /\ (forall l', aadd_opens l os = inl l' -> wfp l').
Proof.
  induction os as [|n os IH]; intros H l W.
  - split; [reflexivity|]. intros l' E. inversion E; subst. exact W.
  - cbn [add_opens aadd_opens]. destruct (negb (open_name_ok n)); [split; [reflexivity | discriminate]|].
    rewrite no_key by (apply H; left; reflexivity).
    change (join bc n) with (enc f (bc, n)).
    destruct (pe_dset l (bc, n) W) as [-> W'];
      [split; [left; reflexivity | apply H; left; reflexivity]|].
    apply IH; [intros; apply H; right; assumption | exact W'].
Qed.

Lemma dget_links : forall l k, (forall x, In x l -> gkey (fst x) /\ gkey (snd x)) -> gkey k ->
  dget String.eqb (map (fun x => (enc f (fst x), enc f (snd x))) l) (enc f k)
  = option_map (enc f) (dget peqb l k).
Proof.
  intros l k W K. apply dget_map. intros k' Hk. apply in_map_iff in Hk as (x & <- & Hx).
  apply enc_eqb; [exact K | apply (W x Hx)].
Qed.

Lemma missing_ren : forall l ps, (forall x, In x l -> gkey (fst x) /\ gkey (snd x)) ->
  (forall k, In k ps -> gkey k) ->
  missing (map (fun x => (enc f (fst x), enc f (snd x))) l) (map (enc f) ps)
  = Some (map (ren_pair f) (amissing l ps)).
Proof.
  intros l ps W. induction ps as [|k ps IH]; intros H; [reflexivity|].
  cbn [map missing amissing]. pose proof (H k (or_introl eq_refl)) as K.
  rewrite enc_unpack, IH, dget_links by (try assumption; intros; apply H; right; assumption).
  destruct (dget peqb l k); reflexivity.
Qed.

Lemma dget_in : forall {K V} (e : K -> K -> bool) (l : list (K * V)) k v,
  dget e l k = Some v -> exists k', In (k', v) l.
Proof.
  induction l as [|[k' v'] l IH]; intros k v E; [discriminate|]. cbn in E.
  destruct (e k k'); [inversion E; subst; exists k'; left; reflexivity|].
  destruct (IH _ _ E) as [k2 I]. exists k2. right. exact I.
Qed.

Lemma neighbour_ren : forall l n q, (forall x, In x l -> gkey (fst x) /\ gkey (snd x)) ->
  plain_name n -> plain_port q ->
  neighbour (map (fun x => (enc f (fst x), enc f (snd x))) l) (f n) q
  = option_map (ren_pair f) (aneighbour l n q).
Proof.
  intros l n q W Hn Hq. unfold neighbour, aneighbour.
  rewrite <- (ren_plain n) by exact Hn. change (join (ren f n) q) with (enc f (n, q)).
  rewrite dget_links by (first [exact W | split; [right; exact Hn | exact Hq]]).
  destruct (dget peqb l (n, q)) as [v|] eqn:E; [|reflexivity]. cbn [option_map].
  apply dget_in in E as [k' I]. destruct (W _ I) as [_ [V1 V2]]. cbn in V1, V2.
  unfold enc. rewrite split_join by (apply end_semi, ren_end, V1).
  rewrite split_none by exact V2. reflexivity.
Qed.

Lemma view_ren : forall l, (forall x, In x l -> gkey (fst x) /\ gkey (snd x)) ->
  view (rename f d) (map (fun x => (enc f (fst x), enc f (snd x))) l)
  = map (fun x => (ren f (fst (fst x)), snd (fst x), option_map (ren_pair f) (snd x))) (aview d l).
Proof.
  intros l W. unfold view, aview. cbn [rename d_parts].
  assert (H : forall p, In p (d_parts d) -> plain_name (fst p) /\ forall q, In q (snd p) -> plain_port q)
    by apply Hd.
  induction (d_parts d) as [|[n qs] ps IH]; [reflexivity|].
  cbn [map flat_map fst snd]. rewrite map_app, IH by (intros; apply H; right; assumption).
  f_equal. destruct (H _ (or_introl eq_refl)) as [Hn Hq]. cbn [fst snd] in *.
  rewrite map_map. apply map_ext_in. intros q Iq. cbn [fst snd].
  rewrite neighbour_ren, (ren_plain n) by (try assumption; apply Hq; exact Iq). reflexivity.
Qed.

Lemma find_none : forall ps, (forall p, In p ps -> plain_name (fst p)) ->
  find (fun p => negb (part_name_ok (fst p))) (map (fun p => (f (fst p), snd p : list string)) ps) = None.
Proof.
  induction ps as [|p ps IH]; intros H; [reflexivity|]. cbn [map find fst].
  destruct (proj1 Hf _ (H p (or_introl eq_refl))) as (_ & S1 & B & _).
  unfold part_name_ok. rewrite S1. apply String.eqb_neq in B. rewrite B. cbn [negb andb].
  apply IH. intros; apply H; right; assumption.
Qed.

Theorem build_ren : build (rename f d) = ren_outcome f (abuild d).
Proof.
  unfold build, abuild. cbn [rename d_parts d_opens d_requests].
  rewrite find_none by (intros p Hp; apply Hd; exact Hp).
  destruct (parts_ren (d_parts d) (fun p H => H) [] (fun x H => match H with end)) as [E1 W1].
  cbn [map] in E1. rewrite E1.
  destruct (opens_ren (d_opens d) (proj1 (proj2 Hd)) _ W1) as [-> W2].
  destruct (aadd_opens _ (d_opens d)) as [ports|n]; [|reflexivity].
  specialize (W2 _ eq_refl).
  destruct (postponed_ren (d_requests d) [] (proj2 (proj2 Hd)) (fun x H => match H with end)) as [E3 W3].
  unfold postponed, apostponed. cbn [map] in E3. rewrite E3. rewrite map_map. cbn [snd].
  rewrite <- (map_map snd (ren_request f)).
  destruct (connect_all_ren (map snd (fold_left (fun d r => dset peqb d (ends1 r) r) (d_requests d) []))
              {| alinks := []; aconn := [] |}) as [E4 W4].
  { intros r Hr. apply in_map_iff in Hr as (x & <- & Hx). apply W3. exact Hx. }
  { split; intros x []. }
  unfold st at 1 in E4. cbn [alinks aconn map] in E4.
  change (d_parts d) with (d_parts d) in E4. unfold rename in E4 at 1. cbn [rename] in *.
  fold (rename f d) in E4. rewrite E4.
  destruct (aconnect_all d _ _) as [s|o]; cbn [lift]; [|reflexivity].
  specialize (W4 _ eq_refl). destruct W4 as [W4 _].
  cbn [st links]. rewrite map_map. unfold pe. cbn [fst].
  rewrite <- (map_map fst (enc f)).
  rewrite missing_ren by (first [exact W4 | intros k Hk; apply in_map_iff in Hk as (x & <- & Hx); apply W2; exact Hx]).
  destruct (amissing (alinks s) (map fst ports)) as [|m ms]; [|reflexivity].
  cbn [map ren_outcome]. f_equal. apply (view_ren _ W4).
Qed.
End Rename.

(** ** Where the connections come from *)
Lemma ren_id : forall n, ren (fun x => x) n = n.
Proof. intros n. unfold ren. destruct (String.eqb n _); reflexivity. Qed.

Lemma rename_id : forall d, rename (fun x => x) d = d.
Proof.
  intros [ps os rs]. unfold rename. cbn. f_equal.
  - induction ps as [|[a b] ps IH]; [reflexivity|]. cbn. f_equal. exact IH.
  - induction rs as [|[a b c e] rs IH]; [reflexivity|]. cbn. f_equal; [|exact IH].
    unfold ren_request. cbn. rewrite !ren_id. reflexivity.
Qed.

Lemma good_id : good (fun x => x).
Proof. split; auto. Qed.

Lemma ren_pair_id : forall x, ren_pair (fun x => x) x = x.
Proof. intros [a b]. unfold ren_pair. cbn. rewrite ren_id. reflexivity. Qed.

Lemma ren_outcome_id : forall o, ren_outcome (fun x => x) o = o.
Proof.
  intros [v|c| |]; cbn; try reflexivity.
  - f_equal. induction v as [|[[a b] e] v IH]; [reflexivity|]. cbn. rewrite IH, ren_id. f_equal. f_equal.
    destruct e; cbn; [rewrite ren_pair_id|]; reflexivity.
  - f_equal. destruct c as [n|n|a b|a b|l]; cbn; rewrite ?ren_id; try reflexivity.
    f_equal. induction l as [|x l IH]; [reflexivity|]. cbn. rewrite ren_pair_id, IH. reflexivity.
Qed.

Lemma build_plain : forall d, plain d -> build d = abuild d.
Proof.
  intros d H. pose proof (build_ren _ good_id d H) as E.
  rewrite rename_id, ren_outcome_id in E. exact E.
Qed.

Lemma aconnect_links : forall d r s s', aconnect d r s = inl s' ->
  forall k v, In (k, v) (alinks s') -> In (k, v) (alinks s) \/
    (k = ends1 r /\ v = ends2 r) \/ (k = ends2 r /\ v = ends1 r).
Proof.
  intros d r s s' E k v I. unfold aconnect in E.
  repeat match goal with
  | H : (if ?b then inr _ else _) = inl _ |- _ => destruct b; [discriminate|]
  end.
  inversion E; subst; clear E. cbn [alinks] in I.
  apply dset_in in I as [I|I]; [inversion I; subst; auto|].
  apply dset_in in I as [I|I]; [inversion I; subst; auto|]. auto.
Qed.

Lemma aconnect_all_links : forall d rs s s', aconnect_all d rs s = inl s' ->
  forall k v, In (k, v) (alinks s') -> In (k, v) (alinks s) \/
    exists r, In r rs /\ ((k = ends1 r /\ v = ends2 r) \/ (k = ends2 r /\ v = ends1 r)).
Proof.
  induction rs as [|r rs IH]; intros s s' E k v I; cbn in E.
  - inversion E; subst. auto.
  - destruct (aconnect d r s) as [s1|o] eqn:E1; [|discriminate].
    destruct (IH _ _ E k v I) as [A|(r' & A & B)].
    + destruct (aconnect_links _ _ _ _ E1 k v A) as [C|C]; [auto|].
      right. exists r. split; [left; reflexivity | exact C].
    + right. exists r'. split; [right; exact A | exact B].
Qed.

Lemma fold_dset_in : forall {A K V} (e : K -> K -> bool) (h : A -> K) (g : A -> V) l acc x,
  In x (fold_left (fun d r => dset e d (h r) (g r)) l acc) ->
  In x acc \/ exists r, In r l /\ x = (h r, g r).
Proof.
  induction l as [|r l IH]; intros acc x I; cbn in I; [auto|].
  destruct (IH _ _ I) as [J|(r' & J & E)].
  - apply dset_in in J as [J|J]; [|auto]. right. exists r. cbn. auto.
  - right. exists r'. cbn. auto.
Qed.

Lemma fold_dset_key : forall {A K V} (e : K -> K -> bool) (h : A -> K) (g : A -> V) l acc x,
  (forall a b, e a b = true -> a = b) ->
  In x (map fst acc) \/ In x (map h l) ->
  In x (map fst (fold_left (fun d r => dset e d (h r) (g r)) l acc)).
Proof.
  intros A K V e h g l acc x He. revert acc.
  induction l as [|r l IH]; intros acc H; cbn in *; [destruct H as [H|[]]; exact H|].
  apply IH. destruct H as [H|[H|H]].
  - left. apply dset_key_in; auto.
  - left. apply dset_key_in; auto.
  - right. exact H.
Qed.

Lemma dget_none_in : forall {K V} (e : K -> K -> bool) (l : list (K * V)) k v,
  (forall a b, e a b = true -> a = b) -> dget e l k = Some v -> In (k, v) l.
Proof.
  intros K V e l k v He. induction l as [|[k' v'] l IH]; cbn; [discriminate|].
  destruct (e k k') eqn:E; intros H; [|right; apply IH; exact H].
  inversion H; subst. apply He in E. subst. left. reflexivity.
Qed.

Lemma amissing_nil : forall l ps, amissing l ps = [] -> forall k, In k ps ->
  exists v, dget peqb l k = Some v.
Proof.
  induction ps as [|k' ps IH]; intros E k I; [contradiction|]. cbn in E.
  destruct (dget peqb l k') as [v|] eqn:D; [|discriminate].
  destruct I as [<-|I]; [exists v; exact D | apply IH; assumption].
Qed.

Lemma apeqb : forall a b, peqb a b = true -> a = b.
Proof. intros a b. apply peqb_spec. Qed.

Lemma seqb : forall a b, String.eqb a b = true -> a = b.
Proof. intros a b. apply String.eqb_eq. Qed.

Lemma aparts_key : forall ps l p q,
  In (p, q) (map fst l) \/ (exists qs, In (p, qs) ps /\ In q qs) ->
  In (p, q) (map fst (fold_left (fun k p => apart_ports p k) ps l)).
Proof.
  induction ps as [|[n ns] ps IH]; intros l p q H; cbn [fold_left].
  - destruct H as [H|(qs & [] & _)]. exact H.
  - apply IH. destruct H as [H|(qs & [H|H] & Q)].
    + left. unfold apart_ports. apply (fold_dset_key peqb (fun po => (n, po)) (fun _ => tt)); [apply apeqb|auto].
    + inversion H; subst. left. unfold apart_ports.
      apply (fold_dset_key peqb (fun po => (p, po)) (fun _ => tt)); [apply apeqb|].
      right. apply in_map. exact Q.
    + right. exists qs. auto.
Qed.

Lemma aopens_key : forall os l l' k, aadd_opens l os = inl l' -> In k (map fst l) -> In k (map fst l').
Proof.
  induction os as [|n os IH]; intros l l' k E I; cbn in E; [inversion E; subst; exact I|].
  destruct (negb (open_name_ok n)); [discriminate|]. apply (IH _ _ _ E).
  apply dset_key_in; [apply apeqb | auto].
Qed.

(** ** The same for the keys as strings *)
Lemma parts_key : forall ps l p q,
  In (join p q) (map fst l) \/ (exists qs, In (p, qs) ps /\ In q qs) ->
  In (join p q) (map fst (fold_left (fun k p => part_ports p k) ps l)).
Proof.
  induction ps as [|[n ns] ps IH]; intros l p q H; cbn [fold_left].
  - destruct H as [H|(qs & [] & _)]. exact H.
  - apply IH. destruct H as [H|(qs & [H|H] & Q)].
    + left. unfold part_ports. apply (fold_dset_key String.eqb (fun po => join n po) (fun _ => tt)); [apply seqb|auto].
    + inversion H; subst. left. unfold part_ports.
      apply (fold_dset_key String.eqb (fun po => join p po) (fun _ => tt)); [apply seqb|].
      right. cbn [snd]. apply (in_map (fun po => join p po)). exact Q.
    + right. exists qs. auto.
Qed.

Lemma opens_key : forall os l l' k, add_opens l os = inl l' -> In k (map fst l) -> In k (map fst l').
Proof.
  induction os as [|n os IH]; intros l l' k E I; cbn in E; [inversion E; subst; exact I|].
  destruct (negb (open_name_ok n)); [discriminate|].
  destruct (dget String.eqb l n); [discriminate|]. apply (IH _ _ _ E).
  apply dset_key_in; [apply seqb | auto].
Qed.

Lemma opens_ok : forall os l l' n, add_opens l os = inl l' -> In n os -> open_name_ok n = true.
Proof.
  induction os as [|m os IH]; intros l l' n E I; [contradiction|]. cbn in E.
  destruct (open_name_ok m) eqn:O; cbn in E; [|discriminate].
  destruct (dget String.eqb l m); [discriminate|].
  destruct I as [<-|I]; [exact O | apply (IH _ _ _ E I)].
Qed.

Lemma missing_none : forall l ps k, In k ps -> unpack k = None -> missing l ps = None.
Proof.
  induction ps as [|k' ps IH]; intros k I U; [contradiction|]. cbn.
  destruct I as [->|I]; [rewrite U; reflexivity|].
  destruct (unpack k'); [|reflexivity]. rewrite (IH k I U). reflexivity.
Qed.

Lemma missing_nil : forall l ps, missing l ps = Some [] -> forall k, In k ps ->
  exists v, dget String.eqb l k = Some v.
Proof.
  induction ps as [|k' ps IH]; intros E k I; [contradiction|]. cbn in E.
  destruct (unpack k') as [pp|]; [|discriminate]. destruct (missing l ps) as [m|]; [|discriminate].
  destruct (dget String.eqb l k') as [v|] eqn:D; [|discriminate].
  inversion E; subst. destruct I as [<-|I]; [exists v; exact D | apply IH; auto].
Qed.

Lemma connect_ok : forall d r s s', connect d r s = inl s' ->
  sp r <> "p_gasb1_ff" /\ port_there d (fp r) (fq r) = true /\ port_there d (sp r) (sq r) = true /\
  forall k v, In (k, v) (links s') -> In (k, v) (links s) \/
    k = join (fp r) (fq r) \/ k = join (sp r) (sq r).
Proof.
  intros d r s s' E. unfold connect in E.
  repeat match goal with
  | H : (if ?b then inr _ else _) = inl _ |- _ => destruct b eqn:?; [discriminate|]
  end.
  repeat match goal with H : negb _ = false |- _ => apply negb_false_iff in H end.
  split; [apply String.eqb_neq; assumption|]. split; [assumption|]. split; [assumption|].
  inversion E; subst; clear E. cbn [links]. intros k v I.
  apply dset_in in I as [I|I]; [inversion I; subst; auto|].
  apply dset_in in I as [I|I]; [inversion I; subst; auto|]. auto.
Qed.

Lemma connect_all_ok : forall d rs s s', connect_all d rs s = inl s' ->
  (forall r, In r rs -> sp r <> "p_gasb1_ff") /\
  forall k v, In (k, v) (links s') -> In (k, v) (links s) \/
    exists p q, k = join p q /\ port_there d p q = true.
Proof.
  induction rs as [|r rs IH]; intros s s' E; cbn in E.
  - inversion E; subst. split; [intros r []|auto].
  - destruct (connect d r s) as [s1|o] eqn:E1; [|discriminate].
    destruct (connect_ok _ _ _ _ E1) as (N & P1 & P2 & L). destruct (IH _ _ E) as [N' L'].
    split; [intros r' [<-|I]; auto|].
    intros k v I. destruct (L' k v I) as [J|J]; [|auto].
    destruct (L k v J) as [K | [-> | ->]]; eauto.
Qed.
