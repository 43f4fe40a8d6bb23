(** * A check of programs over shapes and its soundness (for C176). *)
From Coq Require Import ZArith List Bool String Lia Arith.
From Verif Require Import MShapes SShapes.
Import ListNotations.
Local Open Scope Z_scope.

(** ** Lengths *)
Local Arguments leval : simpl never.
Local Arguments k_ : simpl never.
Fixpoint cadd (a b : list Z) : list Z :=
  match a, b with [], _ => b | _, [] => a | x :: a, y :: b => (x + y) :: cadd a b end.
Definition cscale (k : Z) (a : list Z) : list Z := map (Z.mul k) a.
Definition ladd (a b : lin) : lin := mkL (l_c a + l_c b) (cadd (l_v a) (l_v b)).
Definition lscale (k : Z) (a : lin) : lin := mkL (k * l_c a) (cscale k (l_v a)).
Definition lsub (a b : lin) : lin := ladd a (lscale (-1) b).
Definition lconst (l : lin) : option Z := if forallb (Z.eqb 0) (l_v l) then Some (l_c l) else None.
Definition leq (a b : lin) : bool := match lconst (lsub a b) with Some z => z =? 0 | None => false end.
Definition lmul (a b : lin) : option lin :=
  match lconst a, lconst b with Some k, _ => Some (lscale k b) | _, Some k => Some (lscale k a) | _, _ => None end.
Definition lvar (k : nat) : lin := mkL 0 (repeat 0 k ++ [1]).

Lemma leval_from_cadd : forall v a b k, leval_from v k (cadd a b) = leval_from v k a + leval_from v k b.
Proof. induction a as [|x a IH]; intros [|y b] k; cbn; try lia. rewrite IH. lia. Qed.
Lemma leval_from_scale : forall v c a k, leval_from v k (cscale c a) = c * leval_from v k a.
Proof. induction a as [|x a IH]; intro k; cbn [cscale map leval_from]; [lia|]. fold (cscale c a). rewrite IH. lia. Qed.
Lemma leval_add : forall v a b, leval v (ladd a b) = leval v a + leval v b.
Proof. intros. unfold leval, ladd; cbn. rewrite leval_from_cadd. lia. Qed.
Lemma leval_scale : forall v c a, leval v (lscale c a) = c * leval v a.
Proof. intros. unfold leval, lscale; cbn [l_c l_v]. rewrite leval_from_scale. lia. Qed.
Lemma leval_sub : forall v a b, leval v (lsub a b) = leval v a - leval v b.
Proof. intros. unfold lsub. rewrite leval_add, leval_scale. lia. Qed.
Lemma leval_k : forall v z, leval v (k_ z) = z.
Proof. intros. unfold leval, k_; cbn. lia. Qed.
Lemma leval_from_zero : forall v l k, forallb (Z.eqb 0) l = true -> leval_from v k l = 0.
Proof.
  induction l as [|x l IH]; intros k HH; cbn [forallb leval_from List.length plus] in *; [reflexivity|].
  apply andb_true_iff in HH as [A B]. apply Z.eqb_eq in A. rewrite IH by assumption. subst. lia.
Qed.
Lemma lconst_ok : forall v l z, lconst l = Some z -> leval v l = z.
Proof.
  unfold lconst, leval. intros v l z HH. destruct (forallb (Z.eqb 0) (l_v l)) eqn:E; [|discriminate].
  rewrite leval_from_zero by assumption. injection HH as <-. lia.
Qed.
Lemma leq_ok : forall v a b, leq a b = true -> leval v a = leval v b.
Proof.
  unfold leq. intros v a b HH. destruct (lconst (lsub a b)) eqn:E; [|discriminate].
  apply lconst_ok with (v := v) in E. rewrite leval_sub in E. apply Z.eqb_eq in HH. lia.
Qed.
Lemma lmul_ok : forall v a b c, lmul a b = Some c -> leval v c = leval v a * leval v b.
Proof.
  unfold lmul. intros v a b c HH. destruct (lconst a) eqn:A.
  - injection HH as <-. rewrite leval_scale, (lconst_ok v _ _ A). lia.
  - destruct (lconst b) eqn:B; [|discriminate]. injection HH as <-. rewrite leval_scale, (lconst_ok v _ _ B). lia.
Qed.
Lemma leval_from_var : forall v j k, leval_from v k (repeat 0 j ++ [1]) = v (j + k)%nat.
Proof.
  induction j as [|j IH]; intro k; cbn [repeat List.app leval_from].
  - cbn [plus]. lia.
  - rewrite IH. replace (j + S k)%nat with (S j + k)%nat by lia. lia.
Qed.
Lemma leval_var : forall v k, leval v (lvar k) = v k.
Proof. intros. unfold leval, lvar; cbn [l_c l_v]. rewrite leval_from_var. rewrite Nat.add_0_r. lia. Qed.

Definition wfl (nx : nat) (l : lin) : bool := Nat.leb (List.length (l_v l)) nx.
Definition agree (nx : nat) (v v' : sizes) : Prop := forall k, (k < nx)%nat -> v' k = v k.
Lemma leval_from_agree : forall v v' l k, (forall j, (j < List.length l + k)%nat -> v' j = v j) -> leval_from v' k l = leval_from v k l.
Proof.
  induction l as [|x l IH]; intros k HH; cbn [forallb leval_from List.length plus] in *; [reflexivity|].
  rewrite (HH k) by lia. rewrite (IH (S k)) by (intros; apply HH; lia). reflexivity.
Qed.
Lemma leval_agree : forall nx v v' l, agree nx v v' -> wfl nx l = true -> leval v' l = leval v l.
Proof.
  unfold wfl, leval. intros nx v v' l A W. apply Nat.leb_le in W.
  rewrite (leval_from_agree v v'); [reflexivity|]. intros j Hj. apply A. lia.
Qed.

Section Check.
(** The least values of the sizes; 0 for the sizes after these. *)
Variable mins : list Z.
Definition bounded (v : sizes) : Prop := forall k, nth k mins 0 <= v k.
Fixpoint low (k : nat) (l : list Z) : option Z :=
  match l with
  | [] => Some 0
  | c :: l => match low (S k) l with Some z => if 0 <=? c then Some (c * nth k mins 0 + z) else None | None => None end
  end.
Definition ge0 (l : lin) : bool := match low 0 (l_v l) with Some z => 0 <=? l_c l + z | None => false end.
Lemma low_ok : forall v, bounded v -> forall l k z, low k l = Some z -> z <= leval_from v k l.
Proof.
  intros v B. induction l as [|c l IH]; intros k z HH; cbn [low leval_from] in *.
  - injection HH as <-. lia.
  - destruct (low (S k) l) eqn:E; [|discriminate]. destruct (0 <=? c) eqn:C; [|discriminate].
    injection HH as <-. apply IH in E. apply Z.leb_le in C. specialize (B k). nia.
Qed.
Lemma ge0_ok : forall v l, bounded v -> ge0 l = true -> 0 <= leval v l.
Proof.
  unfold ge0, leval. intros v l B HH. destruct (low 0 (l_v l)) eqn:E; [|discriminate].
  apply (low_ok v B) in E. apply Z.leb_le in HH. lia.
Qed.
Definition le (a b : lin) : bool := ge0 (lsub b a).
Lemma le_ok : forall v a b, bounded v -> le a b = true -> leval v a <= leval v b.
Proof. unfold le. intros v a b B HH. apply (ge0_ok v) in HH; [|assumption]. rewrite leval_sub in HH. lia. Qed.

(** ** Values *)
Inductive av := AArr (d : list (option lin)) | AInt (lo hi : lin) | AIdx (n lo hi : lin) | AMask (n p q : lin).
Definition dok (v : sizes) (d : option lin) (z : Z) : Prop := match d with None => True | Some l => z = leval v l end.
Definition fits (v : sizes) (a : av) (x : value) : Prop :=
  match a with
  | AArr d => exists sh, x = VArr sh /\ Forall2 (dok v) d sh
  | AInt lo hi => exists z, x = VInt z /\ leval v lo <= z <= leval v hi
  | AIdx n lo hi => exists l, x = VIdx l /\ Z.of_nat (List.length l) = leval v n /\ Forall (fun z => leval v lo <= z <= leval v hi) l
  | AMask n p q => exists l, x = VMask l /\ Z.of_nat (List.length l) = leval v n /\ count true l = leval v p /\ count false l = leval v q
  end.
Definition env := list (positive * av).
Fixpoint look (e : env) (x : positive) : option av :=
  match e with [] => None | (y, a) :: r => if Pos.eqb x y then Some a else look r x end.
Definition good (v : sizes) (e : env) (st : state) : Prop :=
  forall x a, look e x = Some a -> exists y, vars st x = Some y /\ fits v a y.
Definition ashape (a : av) : list (option lin) :=
  match a with AArr d => d | AInt _ _ => [] | AIdx n _ _ => [Some n] | AMask n _ _ => [Some n] end.
Lemma ashape_ok : forall v a x, fits v a x -> Forall2 (dok v) (ashape a) (shape x).
Proof.
  intros v [d|lo hi|n lo hi|n p q] x; cbn.
  - intros (sh & -> & HH). exact HH.
  - intros (z & -> & HH). constructor.
  - intros (l & -> & HH & _). constructor; [exact HH | constructor].
  - intros (l & -> & HH & _). constructor; [exact HH | constructor].
Qed.
Fixpoint anelem (d : list (option lin)) : option lin :=
  match d with
  | [] => Some (k_ 1)
  | Some l :: r => match anelem r with Some m => lmul l m | None => None end
  | None :: _ => None
  end.
Lemma anelem_ok : forall v d sh l, Forall2 (dok v) d sh -> anelem d = Some l -> nelem sh = leval v l.
Proof.
  intros v d sh l HH. revert l. induction HH as [|a z d sh A F IH]; intros l E; cbn in E.
  - injection E as <-. symmetry; apply leval_k.
  - destruct a as [a|]; [|discriminate]. destruct (anelem d) as [m|]; [|discriminate].
    rewrite (lmul_ok v _ _ _ E). cbn in A |- *. rewrite A. fold (nelem sh). rewrite (IH m eq_refl). reflexivity.
Qed.

Section Exprs.
Variable e : env.
Fixpoint aint (i : ix) : option (lin * lin) :=
  match i with
  | IC z => Some (k_ z, k_ z)
  | IV x => match look e x with Some (AInt lo hi) => Some (lo, hi) | _ => None end
  | IAdd a b => match aint a, aint b with Some (l, h), Some (l', h') => Some (ladd l l', ladd h h') | _, _ => None end
  | ISub a b => match aint a, aint b with Some (l, h), Some (l', h') => Some (lsub l h', lsub h l') | _, _ => None end
  | IMul a b =>
      match aint a, aint b with
      | Some (l, h), Some (l', h') =>
          match lconst l', lconst h' with
          | Some k, Some k' => if (k =? k') && (0 <=? k) then Some (lscale k l, lscale k h) else None
          | _, _ => None
          end
      | _, _ => None
      end
  | IElem x i =>
      match look e x, aint i with
      | Some (AIdx n lo hi), Some (l, h) => if ge0 l && ge0 (lsub (lsub n (k_ 1)) h) then Some (lo, hi) else None
      | _, _ => None
      end
  | ILen x d => match look e x with Some a => match nth_error (ashape a) d with Some (Some l) => Some (l, l) | _ => None end | None => None end
  | ISize x => match look e x with Some a => match anelem (ashape a) with Some l => Some (l, l) | None => None end | None => None end
  end.
Definition aexact (i : ix) : option (option lin) :=
  match aint i with Some (l, h) => if leq l h then Some (Some l) else Some None | None => None end.

Definition abval (n : option lin) (b : bound) (dflt : option lin) : option (option lin) :=
  match b with
  | BNone => Some dflt
  | BIx i =>
      match aexact i, n with
      | Some (Some l), Some n => if ge0 l && le l n then Some (Some l) else Some None
      | Some _, _ => Some None
      | None, _ => None
      end
  | BEnd k => match n with Some n => if le (k_ (Zpos k)) n then Some (Some (lsub n (k_ (Zpos k)))) else Some None | None => Some None end
  end.
Definition aslice (n : option lin) (lo hi : bound) (s : step) : option (option lin) :=
  match s with
  | SOne =>
      match abval n lo (Some (k_ 0)), abval n hi n with
      | Some (Some a), Some (Some b) => if le a b then Some (Some (lsub b a)) else Some None
      | Some _, Some _ => Some None
      | _, _ => None
      end
  | SBy i =>
      match abval n lo (Some (k_ 0)), abval n hi n, aexact i with
      | Some (Some a), Some (Some b), Some (Some k) =>
          if le (k_ 1) k && leq (lsub b a) (ladd k (k_ 1)) then Some (Some (k_ 2))
          else match lconst a, lconst b, lconst k with
               | Some a, Some b, Some k => if 1 <=? k then Some (Some (k_ (Z.max ((b - a + k - 1) / k) 0))) else None
               | _, _, _ => None
               end
      | _, _, _ => None
      end
  | SRev => match lo, hi with BNone, BNone => Some n | _, _ => None end
  end.
Definition asel1 (n : option lin) (s : sel) : option (option (option lin)) :=
  match s with
  | At i => match aint i, n with Some (l, h), Some n => if ge0 l && ge0 (lsub (lsub n (k_ 1)) h) then Some None else None | _, _ => None end
  | End k => match n with Some n => if le (k_ (Zpos k)) n then Some None else None | None => None end
  | Sl lo hi s => option_map Some (aslice n lo hi s)
  | Pick x =>
      match look e x, n with
      | Some (AIdx m lo hi), Some n => if ge0 lo && ge0 (lsub (lsub n (k_ 1)) hi) then Some (Some (Some m)) else None
      | _, _ => None
      end
  end.
Fixpoint aselect (sh : list (option lin)) (l : list sel) : option (list (option lin)) :=
  match l, sh with
  | [], _ => Some sh
  | _ :: _, [] => None
  | s :: l, n :: sh =>
      match asel1 n s, aselect sh l with
      | Some (Some m), Some r => Some (m :: r) | Some None, Some r => Some r | _, _ => None
      end
  end.
Definition isone (d : option lin) : bool := match d with Some l => leq l (k_ 1) | None => false end.
Definition same (a b : option lin) : bool := match a, b with Some l, Some m => leq l m | _, _ => false end.
Definition abc1 (n m : option lin) : option (option lin) :=
  if same n m then Some n else if isone n then Some m else if isone m then Some n else None.
Fixpoint abcr (a b : list (option lin)) : option (list (option lin)) :=
  match a, b with
  | [], _ => Some b
  | _, [] => Some a
  | x :: a, y :: b => match abc1 x y, abcr a b with Some z, Some r => Some (z :: r) | _, _ => None end
  end.
Definition abcast (a b : list (option lin)) : option (list (option lin)) := option_map (@rev _) (abcr (rev a) (rev b)).
Fixpoint aintor (t x : list (option lin)) : bool :=
  match x, t with
  | [], _ => true
  | _ :: _, [] => false
  | a :: x, b :: t => (same a b || isone a) && aintor t x
  end.
Definition ainto (t x : list (option lin)) : bool := aintor (rev t) (rev x).
Fixpoint adims (l : list ix) : option (list (option lin)) :=
  match l with
  | [] => Some []
  | i :: l => match aexact i, adims l with Some (Some z), Some r => if ge0 z then Some (Some z :: r) else None | _, _ => None end
  end.
Definition nonempty (d : list (option lin)) : bool := forallb (fun x => match x with Some l => le (k_ 1) l | None => false end) d.
Fixpoint aeval (x : expr) : option (list (option lin)) :=
  match x with
  | XNum => Some []
  | XVar x => option_map ashape (look e x)
  | XInt i => match aint i with Some _ => Some [] | None => None end
  | XBin a b => match aeval a, aeval b with Some x, Some y => abcast x y | _, _ => None end
  | XSel a l => match aeval a with Some sh => aselect sh l | None => None end
  | XFlat a i =>
      match aeval a, aint i with
      | Some sh, Some (l, h) =>
          match anelem sh with Some n => if ge0 l && ge0 (lsub (lsub n (k_ 1)) h) then Some [] else None | None => None end
      | _, _ => None
      end
  | XMask a m pos =>
      match aeval a, look e m with
      | Some [Some n], Some (AMask n' p q) => if leq n n' then Some [Some (if pos then p else q)] else None
      | _, _ => None
      end
  | XRed strict a => match aeval a with Some sh => if strict && negb (nonempty sh) then None else Some [] | None => None end
  | XCum a => match aeval a with Some sh => match anelem sh with Some n => Some [Some n] | None => None end | None => None end
  | XLike a => aeval a
  | XNew l => adims l
  | XRavel a => match aeval a with Some sh => match anelem sh with Some n => Some [Some n] | None => None end | None => None end
  | XReshape a b =>
      match aeval a, aeval b with
      | Some s, Some t => match anelem s, anelem t with Some n, Some m => if leq n m then Some t else None | _, _ => None end
      | _, _ => None
      end
  end.

Variable v : sizes.
Variable st : state.
Hypothesis B : bounded v.
Hypothesis G : good v e st.

Lemma in_range : forall l h n z, leval v l <= z <= leval v h -> ge0 l && ge0 (lsub (lsub n (k_ 1)) h) = true -> inside (leval v n) z = true.
Proof.
  intros l h n z Hz HH. apply andb_true_iff in HH as [A C]. apply (ge0_ok v) in A; [|exact B]. apply (ge0_ok v) in C; [|exact B].
  rewrite !leval_sub, leval_k in C. unfold inside. apply andb_true_iff. split; [apply Z.leb_le | apply Z.ltb_lt]; lia.
Qed.
Lemma aint_ok : forall i l h, aint i = Some (l, h) -> exists z, ival st i = Some z /\ leval v l <= z <= leval v h.
Proof.
  induction i as [z|x|a IHa b IHb|a IHa b IHb|a IHa b IHb|x i IH|x d|x]; intros l h HH; cbn [aint] in HH; cbn [ival].
  - injection HH as <- <-. exists z. rewrite leval_k. split; [reflexivity | lia].
  - destruct (look e x) as [[]|] eqn:L; try discriminate. injection HH as <- <-.
    destruct (G _ _ L) as (y & Hy & z & -> & Hz). rewrite Hy. eauto.
  - destruct (aint a) as [[la ha]|]; [|discriminate]. destruct (aint b) as [[lb hb]|]; [|discriminate]. injection HH as <- <-.
    destruct (IHa _ _ eq_refl) as (x & -> & Hx). destruct (IHb _ _ eq_refl) as (y & -> & Hy).
    exists (x + y). rewrite !leval_add. split; [reflexivity | lia].
  - destruct (aint a) as [[la ha]|]; [|discriminate]. destruct (aint b) as [[lb hb]|]; [|discriminate]. injection HH as <- <-.
    destruct (IHa _ _ eq_refl) as (x & -> & Hx). destruct (IHb _ _ eq_refl) as (y & -> & Hy).
    exists (x - y). rewrite !leval_sub. split; [reflexivity | lia].
  - destruct (aint a) as [[la ha]|]; [|discriminate]. destruct (aint b) as [[lb hb]|]; [|discriminate].
    destruct (IHa _ _ eq_refl) as (x & -> & Hx). destruct (IHb _ _ eq_refl) as (y & -> & Hy).
    destruct (lconst lb) as [k|] eqn:K; [|discriminate]. destruct (lconst hb) as [k'|] eqn:K'; [|discriminate].
    destruct ((k =? k') && (0 <=? k)) eqn:E; [|discriminate]. apply andb_true_iff in E as [E1 E2]. apply Z.eqb_eq in E1. apply Z.leb_le in E2.
    injection HH as <- <-. rewrite (lconst_ok v _ _ K), (lconst_ok v _ _ K') in Hy. assert (y = k) by lia; subst k k'; subst. exists (x * y). rewrite !leval_scale. split; [reflexivity | nia].
  - destruct (look e x) as [[]|] eqn:L; try discriminate. destruct (aint i) as [[li hi']|]; [|discriminate].
    destruct (ge0 li && ge0 (lsub (lsub n (k_ 1)) hi')) eqn:R; [|discriminate]. injection HH as <- <-.
    destruct (G _ _ L) as (y & Hy & m & -> & Hn & F). rewrite Hy. destruct (IH _ _ eq_refl) as (z & -> & Hz).
    pose proof (in_range _ _ _ _ Hz R) as I. rewrite <- Hn in I. rewrite I.
    unfold inside in I. apply andb_true_iff in I as [I1 I2]. apply Z.leb_le in I1. apply Z.ltb_lt in I2.
    destruct (nth_error m (Z.to_nat z)) as [c|] eqn:E.
    + exists c. split; [reflexivity|]. rewrite Forall_forall in F. apply F. eapply nth_error_In; eauto.
    + apply nth_error_None in E. lia.
  - destruct (look e x) as [a|] eqn:L; [|discriminate]. destruct (nth_error (ashape a) d) as [[m|]|] eqn:E; try discriminate.
    injection HH as <- <-. destruct (G _ _ L) as (y & Hy & F). rewrite Hy. apply ashape_ok in F.
    clear L Hy. revert d E. induction F as [|p q ps qs A F IHF]; intros [|d] E; cbn in *; try discriminate.
    + injection E as ->. cbn in A. exists q. split; [reflexivity | lia].
    + apply IHF; assumption.
  - destruct (look e x) as [a|] eqn:L; [|discriminate]. destruct (anelem (ashape a)) as [m|] eqn:E; [|discriminate].
    injection HH as <- <-. destruct (G _ _ L) as (y & Hy & F). rewrite Hy. apply ashape_ok in F.
    exists (nelem (shape y)). rewrite (anelem_ok v _ _ _ F E). split; [reflexivity | lia].
Qed.
Lemma aexact_ok : forall i o, aexact i = Some o -> exists z, ival st i = Some z /\ dok v o z.
Proof.
  unfold aexact. intros i o HH. destruct (aint i) as [[l h]|] eqn:E; [|discriminate].
  destruct (aint_ok _ _ _ E) as (z & Hz & R). exists z. split; [exact Hz|].
  destruct (leq l h) eqn:Q; injection HH as <-; cbn; [|exact I]. apply (leq_ok v) in Q. lia.
Qed.
Lemma abval_ok : forall n n' b d d' o, dok v n n' -> dok v d d' -> abval n b d = Some o -> exists z, bval st n' b d' = Some z /\ dok v o z.
Proof.
  intros n n' [|i|k] d d' o Hn Hd HH; cbn [abval bval] in *.
  - injection HH as <-. eauto.
  - destruct (aexact i) as [x|] eqn:E; [|discriminate]. destruct (aexact_ok _ _ E) as (z & -> & Hz).
    eexists; split; [reflexivity|].
    destruct x as [l|]; [|injection HH as <-; exact I].
    destruct n as [n|]; [|injection HH as <-; exact I].
    destruct (ge0 l && le l n) eqn:Q; injection HH as <-; [|exact I].
    apply andb_true_iff in Q as [Q1 Q2]. apply (ge0_ok v) in Q1; [|exact B]. apply (le_ok v) in Q2; [|exact B]. cbn in *. subst.
    replace (leval v l <? 0) with false by (symmetry; apply Z.ltb_ge; lia). lia.
  - eexists; split; [reflexivity|]. destruct n as [n|]; [|injection HH as <-; exact I].
    destruct (le (k_ (Zpos k)) n) eqn:Q; injection HH as <-; [|exact I]. apply (le_ok v) in Q; [|exact B]. rewrite leval_k in Q.
    cbn in Hn |- *. rewrite leval_sub, leval_k. lia.
Qed.
Lemma aslice_ok : forall n n' lo hi s o, dok v n n' -> aslice n lo hi s = Some o -> exists z, slice st n' lo hi s = Some z /\ dok v o z.
Proof.
  intros n n' lo hi [| |i] o Hn HH; cbn [aslice slice] in *.
  - destruct (abval n lo (Some (k_ 0))) as [a|] eqn:A; [|discriminate].
    destruct (abval n hi n) as [b|] eqn:C; [|destruct a; discriminate].
    assert (D : dok v (Some (k_ 0)) 0) by (cbn; rewrite leval_k; reflexivity).
    destruct (abval_ok _ _ _ _ _ _ Hn D A) as (x & -> & Hx). destruct (abval_ok _ _ _ _ _ _ Hn Hn C) as (y & -> & Hy).
    eexists; split; [reflexivity|].
    destruct a as [a|]; [|injection HH as <-; exact I]. destruct b as [b|]; [|injection HH as <-; exact I].
    destruct (le a b) eqn:Q; injection HH as <-; [|exact I]. apply (le_ok v) in Q; [|exact B]. cbn in *. rewrite leval_sub. lia.
  - destruct lo; try discriminate. destruct hi; try discriminate. injection HH as <-. eauto.
  - destruct (abval n lo (Some (k_ 0))) as [[a|]|] eqn:A; try discriminate.
    destruct (abval n hi n) as [[b|]|] eqn:C; try discriminate. destruct (aexact i) as [[k|]|] eqn:E; try discriminate.
    assert (D : dok v (Some (k_ 0)) 0) by (cbn; rewrite leval_k; reflexivity).
    destruct (abval_ok _ _ _ _ _ _ Hn D A) as (x & -> & Hx). destruct (abval_ok _ _ _ _ _ _ Hn Hn C) as (y & -> & Hy).
    destruct (aexact_ok _ _ E) as (z & -> & Hz). cbn in Hx, Hy, Hz.
    destruct (le (k_ 1) k && leq (lsub b a) (ladd k (k_ 1))) eqn:Q.
    + injection HH as <-. apply andb_true_iff in Q as [Q1 Q2]. apply (le_ok v) in Q1; [|exact B]. apply (leq_ok v) in Q2.
      rewrite leval_add, leval_sub, leval_k in Q2. rewrite leval_k in Q1.
      replace (z <=? 0) with false by (symmetry; apply Z.leb_gt; lia). eexists; split; [reflexivity|]. cbn. rewrite leval_k.
      replace (y - x + z - 1) with (2 * z) by lia. rewrite Z.div_mul by lia. reflexivity.
    + destruct (lconst a) eqn:Ka; [|discriminate]. destruct (lconst b) eqn:Kb; [|discriminate]. destruct (lconst k) eqn:Kk; [|discriminate].
      destruct (1 <=? z2) eqn:Q1; [|discriminate]. injection HH as <-. apply Z.leb_le in Q1.
      rewrite (lconst_ok v _ _ Ka) in Hx. rewrite (lconst_ok v _ _ Kb) in Hy. rewrite (lconst_ok v _ _ Kk) in Hz. subst.
      replace (z2 <=? 0) with false by (symmetry; apply Z.leb_gt; lia). eexists; split; [reflexivity|]. cbn [dok]. rewrite leval_k. reflexivity.
Qed.
Lemma asel1_ok : forall n n' s o, dok v n n' -> asel1 n s = Some o ->
  match o with Some d => exists z, sel1 st n' s = Some (Some z) /\ dok v d z | None => sel1 st n' s = Some None end.
Proof.
  intros n n' [i|k|lo hi s|x] o Hn HH; cbn [asel1 sel1] in *.
  - destruct (aint i) as [[l h]|] eqn:E; [|discriminate]. destruct n as [n|]; [|discriminate].
    destruct (ge0 l && ge0 (lsub (lsub n (k_ 1)) h)) eqn:Q; [|discriminate]. injection HH as <-.
    destruct (aint_ok _ _ _ E) as (z & -> & R). cbn in Hn. rewrite Hn, (in_range _ _ _ _ R Q). reflexivity.
  - destruct n as [n|]; [|discriminate]. destruct (le (k_ (Zpos k)) n) eqn:Q; [|discriminate]. injection HH as <-.
    apply (le_ok v) in Q; [|exact B]. rewrite leval_k in Q. cbn in Hn. subst. apply Z.leb_le in Q. rewrite Q. reflexivity.
  - destruct (aslice n lo hi s) as [d|] eqn:E; [|discriminate]. injection HH as <-.
    destruct (aslice_ok _ _ _ _ _ _ Hn E) as (z & Hz & D). rewrite Hz. exists z. split; [reflexivity | exact D].
  - destruct (look e x) as [[]|] eqn:L; try discriminate. destruct n as [n|]; [|discriminate].
    destruct (ge0 lo && ge0 (lsub (lsub n (k_ 1)) hi)) eqn:Q; [|discriminate]. injection HH as <-.
    destruct (G _ _ L) as (y & Hy & m & -> & Hm & F). rewrite Hy. cbn in Hn.
    replace (forallb (inside n') m) with true.
    + eexists; split; [reflexivity | exact Hm].
    + symmetry. apply forallb_forall. intros z Hz. rewrite Forall_forall in F. rewrite Hn. exact (in_range _ _ _ _ (F z Hz) Q).
Qed.
Lemma aselect_ok : forall l sh sh' r, Forall2 (dok v) sh sh' -> aselect sh l = Some r -> exists r', select st sh' l = Some r' /\ Forall2 (dok v) r r'.
Proof.
  induction l as [|s l IH]; intros sh sh' r F HH; cbn [aselect select] in *.
  - destruct F; injection HH as <-; eexists; split; try reflexivity; try constructor; assumption.
  - destruct F as [|n n' sh sh' Hn F]; [discriminate|].
    cbn [aselect select] in *. destruct (asel1 n s) as [o|] eqn:E; [|discriminate]. pose proof (asel1_ok _ _ _ _ Hn E) as O.
    destruct (aselect sh l) as [q|] eqn:E'; [|destruct o; discriminate].
    destruct (IH _ _ _ F E') as (q' & -> & F').
    destruct o as [d|].
    + injection HH as <-. destruct O as (z & -> & Hz). eexists; split; [reflexivity|]. constructor; assumption.
    + injection HH as <-. rewrite O. eauto.
Qed.
Lemma isone_ok : forall d z, dok v d z -> isone d = true -> z = 1.
Proof. intros [l|] z D HH; [|discriminate]. cbn in *. apply (leq_ok v) in HH. rewrite leval_k in HH. lia. Qed.
Lemma same_ok : forall a b x y, dok v a x -> dok v b y -> same a b = true -> x = y.
Proof. intros [l|] [m|] x y A C HH; try discriminate. cbn in *. apply (leq_ok v) in HH. lia. Qed.
Lemma abcr_ok : forall a b a' b' r, Forall2 (dok v) a a' -> Forall2 (dok v) b b' -> abcr a b = Some r ->
  exists r', bcr a' b' = Some r' /\ Forall2 (dok v) r r'.
Proof.
  intros a b a' b' r FA. revert b b' r. induction FA as [|x x' a a' Hx FA IH]; intros b b' r FB HH; cbn [abcr bcr] in *.
  - injection HH as <-. eauto.
  - destruct FB as [|y y' b b' Hy FB].
    + injection HH as <-. eexists; split; [reflexivity|]. constructor; assumption.
    + destruct (abc1 x y) as [z|] eqn:E; [|discriminate]. destruct (abcr a b) as [q|] eqn:E'; [|discriminate]. injection HH as <-.
      destruct (IH _ _ _ FB E') as (q' & -> & F).
      assert (Z1 : exists z', bc1 x' y' = Some z' /\ dok v z z').
      { unfold abc1 in E. unfold bc1. destruct (same x y) eqn:S1.
        - injection E as <-. rewrite (proj2 (Z.eqb_eq x' y') (same_ok _ _ _ _ Hx Hy S1)). eauto.
        - destruct (isone x) eqn:S2.
          + injection E as <-. pose proof (isone_ok _ _ Hx S2). subst x'. destruct (1 =? y') eqn:Q; [apply Z.eqb_eq in Q; subst; eauto|].
            cbn. eauto.
          + destruct (isone y) eqn:S3; [|discriminate]. injection E as <-. pose proof (isone_ok _ _ Hy S3). subst y'.
            destruct (x' =? 1) eqn:Q; [eauto|]. cbn. eauto. }
      destruct Z1 as (z' & -> & Hz). eexists; split; [reflexivity|]. constructor; assumption.
Qed.
Lemma F2rev : forall d sh, Forall2 (dok v) d sh -> Forall2 (dok v) (rev d) (rev sh).
Proof. intros d sh F. induction F; cbn; [constructor|]. apply Forall2_app; [assumption | repeat constructor; assumption]. Qed.
Lemma abcast_ok : forall a b a' b' r, Forall2 (dok v) a a' -> Forall2 (dok v) b b' -> abcast a b = Some r ->
  exists r', bcast a' b' = Some r' /\ Forall2 (dok v) r r'.
Proof.
  unfold abcast, bcast. intros a b a' b' r FA FB HH. destruct (abcr (rev a) (rev b)) as [q|] eqn:E; [|discriminate]. injection HH as <-.
  destruct (abcr_ok _ _ _ _ _ (F2rev _ _ FA) (F2rev _ _ FB) E) as (q' & -> & F). eexists; split; [reflexivity|]. apply F2rev; assumption.
Qed.
Lemma aintor_ok : forall x t x' t', Forall2 (dok v) x x' -> Forall2 (dok v) t t' -> aintor t x = true -> intor t' x' = true.
Proof.
  intros x t x' t' FX. revert t t'. induction FX as [|a a' x x' Ha FX IH]; intros t t' FT HH; [destruct t'; reflexivity|].
  destruct FT as [|b b' t t' Hb FT]; [discriminate|]. cbn [aintor intor] in *. apply andb_true_iff in HH as [C D]. rewrite (IH _ _ FT D), andb_true_r.
  apply orb_true_iff in C as [C|C]; apply orb_true_iff; [left|right]; apply Z.eqb_eq.
  - exact (same_ok _ _ _ _ Ha Hb C).
  - exact (isone_ok _ _ Ha C).
Qed.
Lemma ainto_ok : forall x t x' t', Forall2 (dok v) x x' -> Forall2 (dok v) t t' -> ainto t x = true -> into t' x' = true.
Proof. unfold ainto, into. intros. eapply aintor_ok; [apply F2rev; eassumption | apply F2rev; eassumption | assumption]. Qed.
Lemma adims_ok : forall l d, adims l = Some d -> exists sh, dims st l = Some sh /\ Forall2 (dok v) d sh.
Proof.
  induction l as [|i l IH]; intros d HH; cbn [adims dims] in *.
  - injection HH as <-. eexists; split; [reflexivity | constructor].
  - destruct (aexact i) as [[z|]|] eqn:E; try discriminate. destruct (adims l) as [r|]; [|discriminate].
    destruct (ge0 z) eqn:Q; [|discriminate]. injection HH as <-. destruct (aexact_ok _ _ E) as (y & -> & Hy).
    destruct (IH _ eq_refl) as (sh & -> & F). apply (ge0_ok v) in Q; [|exact B]. cbn in Hy.
    replace (y <? 0) with false by (symmetry; apply Z.ltb_ge; lia). eexists; split; [reflexivity|]. constructor; [exact Hy | exact F].
Qed.
Lemma nonempty_ok : forall d sh, Forall2 (dok v) d sh -> nonempty d = true -> 0 < nelem sh.
Proof.
  intros d sh F HH. induction F as [|a x d sh A F IH]; cbn; [lia|]. cbn in HH. apply andb_true_iff in HH as [C D].
  destruct a as [l|]; [|discriminate]. apply (le_ok v) in C; [|exact B]. rewrite leval_k in C. cbn in A. specialize (IH D). fold (nelem sh). nia.
Qed.
Lemma aeval_ok : forall x d, aeval x = Some d -> exists sh, eval st x = Some sh /\ Forall2 (dok v) d sh.
Proof.
  induction x as [|x|i|a IHa b IHb|a IHa l|a IHa i|a IHa m pos|s a IHa|a IHa|a IHa|l|a IHa|a IHa b IHb]; intros d HH; cbn [aeval] in HH; cbn [eval].
  - injection HH as <-. eexists; split; [reflexivity | constructor].
  - destruct (look e x) as [y|] eqn:L; [|discriminate]. injection HH as <-. destruct (G _ _ L) as (z & -> & F).
    eexists; split; [reflexivity | apply ashape_ok; exact F].
  - destruct (aint i) as [[l h]|] eqn:E; [|discriminate]. injection HH as <-. destruct (aint_ok _ _ _ E) as (z & -> & _).
    eexists; split; [reflexivity | constructor].
  - destruct (aeval a) as [x|]; [|discriminate]. destruct (aeval b) as [y|]; [|discriminate].
    destruct (IHa _ eq_refl) as (x' & -> & FX). destruct (IHb _ eq_refl) as (y' & -> & FY). exact (abcast_ok _ _ _ _ _ FX FY HH).
  - destruct (aeval a) as [x|]; [|discriminate]. destruct (IHa _ eq_refl) as (x' & -> & FX). exact (aselect_ok _ _ _ _ FX HH).
  - destruct (aeval a) as [x|]; [|discriminate]. destruct (aint i) as [[l h]|] eqn:E; [|discriminate].
    destruct (anelem x) as [n|] eqn:Nn; [|discriminate]. destruct (ge0 l && ge0 (lsub (lsub n (k_ 1)) h)) eqn:Q; [|discriminate]. injection HH as <-.
    destruct (IHa _ eq_refl) as (x' & -> & FX). destruct (aint_ok _ _ _ E) as (z & -> & R).
    rewrite (anelem_ok v _ _ _ FX Nn), (in_range _ _ _ _ R Q). eexists; split; [reflexivity | constructor].
  - destruct (aeval a) as [[|[n|] [|? ?]]|]; try discriminate. destruct (look e m) as [[]|] eqn:L; try discriminate.
    destruct (leq n n0) eqn:Q; [|discriminate]. injection HH as <-. destruct (IHa _ eq_refl) as (x' & -> & FX).
    inversion FX as [|? z ? ? A F]; subst. inversion F; subst. destruct (G _ _ L) as (y & Hy & k & -> & K1 & K2 & K3). rewrite Hy.
    apply (leq_ok v) in Q. cbn in A. replace (z =? Z.of_nat (List.length k)) with true by (symmetry; apply Z.eqb_eq; lia).
    eexists; split; [reflexivity|]. constructor; [|constructor]. cbn. destruct pos; assumption.
  - destruct (aeval a) as [x|]; [|discriminate]. destruct (IHa _ eq_refl) as (x' & -> & FX).
    destruct (s && negb (nonempty x)) eqn:Q; [discriminate|]. injection HH as <-.
    assert (E : s && (nelem x' <=? 0) = false).
    { destruct s; [|reflexivity]. cbn in Q |- *. apply negb_false_iff in Q. apply Z.leb_gt. exact (nonempty_ok _ _ FX Q). }
    rewrite E. eexists; split; [reflexivity | constructor].
  - destruct (aeval a) as [x|]; [|discriminate]. destruct (anelem x) as [n|] eqn:Nn; [|discriminate]. injection HH as <-.
    destruct (IHa _ eq_refl) as (x' & -> & FX). eexists; split; [reflexivity|]. constructor; [|constructor]. exact (anelem_ok v _ _ _ FX Nn).
  - exact (IHa _ HH).
  - exact (adims_ok _ _ HH).
  - destruct (aeval a) as [x|]; [|discriminate]. destruct (anelem x) as [n|] eqn:Nn; [|discriminate]. injection HH as <-.
    destruct (IHa _ eq_refl) as (x' & -> & FX). eexists; split; [reflexivity|]. constructor; [|constructor]. exact (anelem_ok v _ _ _ FX Nn).
  - destruct (aeval a) as [x|]; [|discriminate]. destruct (aeval b) as [y|]; [|discriminate].
    destruct (anelem x) as [n|] eqn:Nn; [|discriminate]. destruct (anelem y) as [m|] eqn:Mm; [|discriminate].
    destruct (leq n m) eqn:Q; [|discriminate]. injection HH as <-.
    destruct (IHa _ eq_refl) as (x' & -> & FX). destruct (IHb _ eq_refl) as (y' & -> & FY).
    rewrite (anelem_ok v _ _ _ FX Nn), (anelem_ok v _ _ _ FY Mm). apply (leq_ok v) in Q.
    rewrite (proj2 (Z.eqb_eq _ _) Q). eauto.
Qed.
End Exprs.

(** ** Statements *)
Fixpoint deq (a b : list (option lin)) : bool :=
  match a, b with
  | [], [] => true
  | x :: a, y :: b => match x, y with Some l, Some m => leq l m | None, None => true | Some _, None => false | None, Some _ => false end && deq a b
  | _, _ => false
  end.
Definition aeq (a b : av) : bool :=
  match a, b with
  | AArr d, AArr d' => deq d d'
  | AInt l h, AInt l' h' => leq l l' && leq h h'
  | AIdx n l h, AIdx n' l' h' => leq n n' && leq l l' && leq h h'
  | AMask n p q, AMask n' p' q' => leq n n' && leq p p' && leq q q'
  | _, _ => false
  end.
Definition wfa (nx : nat) (a : av) : bool :=
  match a with
  | AArr d => forallb (fun x => match x with Some l => wfl nx l | None => true end) d
  | AInt l h => wfl nx l && wfl nx h
  | AIdx n l h => wfl nx n && wfl nx l && wfl nx h
  | AMask n p q => wfl nx n && wfl nx p && wfl nx q
  end.
Lemma deq_ok : forall v a b sh, deq a b = true -> Forall2 (dok v) a sh -> Forall2 (dok v) b sh.
Proof.
  induction a as [|x a IH]; intros [|y b] sh E F; cbn in E; try discriminate.
  - exact F.
  - inversion F as [|? z ? sh' A F']; subst. apply andb_true_iff in E as [E1 E2]. constructor; [|exact (IH _ _ E2 F')].
    destruct x as [l|], y as [m|]; try discriminate; cbn in *; [|exact I]. rewrite A. exact (leq_ok v _ _ E1).
Qed.
Lemma aeq_ok : forall v a b x, aeq a b = true -> fits v a x -> fits v b x.
Proof.
  intros v [d|l h|n l h|n p q] [d'|l' h'|n' l' h'|n' p' q'] x E F; cbn in E; try discriminate; cbn in *.
  - destruct F as (sh & -> & F). exists sh. split; [reflexivity | exact (deq_ok v _ _ _ E F)].
  - apply andb_true_iff in E as [E1 E2]. apply (leq_ok v) in E1, E2. rewrite <- E1, <- E2. exact F.
  - apply andb_true_iff in E as [E1 E3]. apply andb_true_iff in E1 as [E1 E2]. apply (leq_ok v) in E1, E2, E3. rewrite <- E1, <- E2, <- E3. exact F.
  - apply andb_true_iff in E as [E1 E3]. apply andb_true_iff in E1 as [E1 E2]. apply (leq_ok v) in E1, E2, E3. rewrite <- E1, <- E2, <- E3. exact F.
Qed.
Lemma wfa_ok : forall nx v v' a x, agree nx v v' -> wfa nx a = true -> (fits v' a x <-> fits v a x).
Proof.
  intros nx v v' [d|l h|n l h|n p q] x A W; cbn in W; cbn.
  - assert (E : forall sh, Forall2 (dok v') d sh <-> Forall2 (dok v) d sh).
    { induction d as [|o d IH]; intro sh; [split; intro F; inversion F; constructor|]. cbn in W. apply andb_true_iff in W as [W1 W2].
      assert (D : forall z, dok v' o z <-> dok v o z).
      { intro z. destruct o as [l|]; cbn; [|tauto]. rewrite (leval_agree _ _ _ _ A W1). tauto. }
      split; intro F; inversion F; subst; constructor; try apply D; try apply (IH W2); assumption. }
    split; intros (sh & -> & F); exists sh; split; try reflexivity; apply E; exact F.
  - apply andb_true_iff in W as [W1 W2]. rewrite (leval_agree _ _ _ _ A W1), (leval_agree _ _ _ _ A W2). tauto.
  - apply andb_true_iff in W as [W1 W3]. apply andb_true_iff in W1 as [W1 W2].
    rewrite (leval_agree _ _ _ _ A W1), (leval_agree _ _ _ _ A W2), (leval_agree _ _ _ _ A W3). tauto.
  - apply andb_true_iff in W as [W1 W3]. apply andb_true_iff in W1 as [W1 W2].
    rewrite (leval_agree _ _ _ _ A W1), (leval_agree _ _ _ _ A W2), (leval_agree _ _ _ _ A W3). tauto.
Qed.

Inductive verdict := Bad | Dead | Live (nx : nat) (e : env).
(** The entries of [a] that [b] has, too, and that only use sizes before [nx]. *)
Definition meet (nx : nat) (a b : env) : env :=
  flat_map (fun p => match look a (fst p), look b (fst p) with
                     | Some x, Some y => if aeq x y && wfa nx x && wfa nx y then [(fst p, y)] else []
                     | _, _ => []
                     end) b.
(** Does [b] still hold what [a] holds? *)
Definition keeps (nx : nat) (a b : env) : bool :=
  forallb (fun p => match look a (fst p), look b (fst p) with
                    | Some x, Some y => aeq y x && wfa nx x
                    | _, _ => false
                    end) a.
Fixpoint chk (nx : nat) (e : env) (p : stmt) : verdict :=
  match p with
  | Skip => Live nx e
  | Seq a b => match chk nx e a with Live nx e => chk nx e b | r => r end
  | Raise => Dead
  | Let x y =>
      match y with
      | XVar z => match look e z with Some a => Live nx ((x, a) :: e) | None => Bad end
      | _ => match aeval e y with Some d => Live nx ((x, AArr d) :: e) | None => Bad end
      end
  | LetInt x i => match aint e i with Some (l, h) => Live nx ((x, AInt l h) :: e) | None => Bad end
  | MkMask x y =>
      match aeval e y with
      | Some [Some n] =>
          if ge0 n && wfl nx n && forallb (fun p => wfa nx (snd p)) e && Nat.leb (List.length mins) nx
          then Live (S (S nx)) ((x, AMask n (lvar nx) (lvar (S nx))) :: e) else Bad
      | _ => Bad
      end
  | Store x l y =>
      match look e x, aeval e y with
      | Some (AArr d), Some s => match aselect e d l with Some t => if ainto t s then Live nx e else Bad | None => Bad end
      | _, _ => Bad
      end
  | StoreFlat x i y =>
      match look e x, aint e i, aeval e y with
      | Some (AArr d), Some (l, h), Some [] =>
          match anelem d with Some n => if ge0 l && ge0 (lsub (lsub n (k_ 1)) h) then Live nx e else Bad | None => Bad end
      | _, _, _ => Bad
      end
  | StoreMask x m pos y =>
      match look e x, look e m, aeval e y with
      | Some (AArr [Some n]), Some (AMask n' p q), Some s => if leq n n' && ainto [Some (if pos then p else q)] s then Live nx e else Bad
      | _, _, _ => Bad
      end
  | If c a b =>
      match aeval e c with
      | Some d =>
          if forallb isone d then
            match chk nx e a, chk nx e b with
            | Live _ x, Live _ y => Live nx (meet nx x y)
            | Live _ x, Dead => Live nx (meet nx x x)
            | Dead, Live _ y => Live nx (meet nx y y)
            | Dead, Dead => Dead
            | _, _ => Bad
            end
          else Bad
      | None => Bad
      end
  | For x hi b =>
      match aint e hi with
      | Some (_, h) =>
          match chk nx ((x, AInt (k_ 0) (lsub h (k_ 1))) :: e) b with
          | Live _ e' => if keeps nx e e' then Live nx e else Bad
          | Dead => Live nx e
          | Bad => Bad
          end
      | None => Bad
      end
  end.

Definition holds (w : oracle) (p : stmt) (nx : nat) (v : sizes) (st : state) (r : verdict) : Prop :=
  match r with
  | Bad => True
  | Dead => run w p st = Raised
  | Live nx' e' => run w p st = Raised \/
      exists st' v', run w p st = Done st' /\ bounded v' /\ agree nx v v' /\ (nx <= nx')%nat /\ good v' e' st'
  end.

Lemma good_bind : forall v e st x a y, good v e st -> fits v a y -> good v ((x, a) :: e) (bind st x y).
Proof.
  intros v e st x a y G F z b L. cbn in L |- *. unfold setv. destruct (Pos.eqb z x) eqn:E; [injection L as <-; eauto | exact (G _ _ L)].
Qed.
Lemma agree_refl : forall nx v, agree nx v v. Proof. intros nx v k _. reflexivity. Qed.
Lemma meet_look : forall nx a b x z, look (meet nx a b) x = Some z ->
  exists y, look a x = Some y /\ look b x = Some z /\ aeq y z = true /\ wfa nx y = true /\ wfa nx z = true.
Proof.
  intros nx a b x z HH.
  assert (I : In (x, z) (meet nx a b)).
  { revert HH. generalize (meet nx a b). induction e as [|[y c] e IH]; cbn; [discriminate|].
    destruct (Pos.eqb x y) eqn:E; [|auto]. apply Pos.eqb_eq in E. intro K. injection K as ->. subst. auto. }
  unfold meet in I. apply in_flat_map in I as ([p c] & _ & I). cbn [fst] in I.
  destruct (look a p) as [y|] eqn:L1; [|destruct I]. destruct (look b p) as [y'|] eqn:L2; [|destruct I].
  destruct (aeq y y' && wfa nx y && wfa nx y') eqn:E; [|destruct I]. destruct I as [I|[]]. injection I as <- <-.
  apply andb_true_iff in E as [E1 E3]. apply andb_true_iff in E1 as [E1 E2]. exists y. auto.
Qed.
Lemma meet_l : forall nx v v' a b st, agree nx v v' -> good v' a st -> good v (meet nx a b) st.
Proof.
  intros nx v v' a b st A G x z L. apply meet_look in L as (y & L1 & L2 & E & W1 & W2).
  destruct (G _ _ L1) as (c & Hc & F). exists c. split; [exact Hc|]. apply (wfa_ok _ _ _ _ _ A W2). exact (aeq_ok _ _ _ _ E F).
Qed.
Lemma meet_r : forall nx v v' a b st, agree nx v v' -> good v' b st -> good v (meet nx a b) st.
Proof.
  intros nx v v' a b st A G x z L. apply meet_look in L as (y & L1 & L2 & E & W1 & W2).
  destruct (G _ _ L2) as (c & Hc & F). exists c. split; [exact Hc|]. apply (wfa_ok _ _ _ _ _ A W2). exact F.
Qed.
Lemma look_in : forall e x a, look e x = Some a -> In (x, a) e.
Proof.
  induction e as [|[y c] e IH]; cbn; intros x a HH; [discriminate|]. destruct (Pos.eqb x y) eqn:E; [|auto].
  apply Pos.eqb_eq in E. injection HH as ->. subst. auto.
Qed.
Lemma keeps_ok : forall nx v v' a b st, agree nx v v' -> keeps nx a b = true -> good v' b st -> good v a st.
Proof.
  intros nx v v' a b st A K G x z L. unfold keeps in K. rewrite forallb_forall in K. specialize (K (x, z) (look_in _ _ _ L)). cbn in K.
  rewrite L in K. destruct (look b x) as [y|] eqn:L2; [|discriminate]. apply andb_true_iff in K as [K1 K2].
  destruct (G _ _ L2) as (c & Hc & F). exists c. split; [exact Hc|]. apply (wfa_ok _ _ _ _ _ A K2). exact (aeq_ok _ _ _ _ K1 F).
Qed.
Lemma count_nonneg : forall b l, 0 <= count b l. Proof. intros. unfold count. lia. Qed.

Lemma rounds_ok : forall f x v e (h : lin),
  (forall k st, 0 <= k <= leval v h - 1 -> good v e st -> f (bind st x (VInt k)) = Raised \/ exists st', f (bind st x (VInt k)) = Done st' /\ good v e st') ->
  forall n k st, 0 <= k -> k + Z.of_nat n <= leval v h -> good v e st -> rounds f x n k st = Raised \/ exists st', rounds f x n k st = Done st' /\ good v e st'.
Proof.
  intros f x v e h Hf. induction n as [|n IH]; intros k st K1 K2 G; cbn [rounds]; [right; eauto|].
  destruct (Hf k st ltac:(lia) G) as [-> | (st' & -> & G')]; [left; reflexivity|]. apply IH; [lia | lia | exact G'].
Qed.

Lemma chk_ok : forall w p nx e v st, bounded v -> good v e st -> holds w p nx v st (chk nx e p).
Proof.
  intros w. induction p as [|a IHa b IHb| |x y|x i|x y|x l y|x i y|x m pos y|c a IHa b IHb|x hi b IHb]; intros nx e v st B G; cbn [chk].
  - right. exists st, v. cbn. repeat split; auto using agree_refl.
  - specialize (IHa nx e v st B G). destruct (chk nx e a) as [| |nx' e'] eqn:E; cbn in *; [exact I | rewrite IHa; reflexivity |].
    destruct IHa as [HR|(st' & v' & HD & B' & A & Le & G')].
    + destruct (chk nx' e' b); cbn; [exact I | rewrite HR; reflexivity | left; rewrite HR; reflexivity].
    + specialize (IHb nx' e' v' st' B' G'). destruct (chk nx' e' b) as [| |n2 e2]; cbn in *; [exact I | rewrite HD; exact IHb |].
      rewrite HD. destruct IHb as [HR|(s2 & v2 & HD2 & B2 & A2 & Le2 & G2)]; [left; exact HR | right].
      exists s2, v2. repeat split; auto; [|lia]. intros k Hk. rewrite A2 by lia. apply A; lia.
  - reflexivity.
  - assert (K : forall d, aeval e y = Some d -> run w (Let x y) st = match y with XVar z => run w (Let x y) st | _ => match eval st y with Some sh => Done (bind st x (VArr sh)) | None => Fault end end).
    { intros d _. destruct y; reflexivity. }
    destruct y as [|z|i|a b|a l|a i|a m pos|s a|a|a|l|a|a b];
    try (match goal with |- context [aeval e ?t] => destruct (aeval e t) as [d|] eqn:E; [|exact I]; destruct (aeval_ok e v st B G _ _ E) as (sh & Hs & F);
           right; exists (bind st x (VArr sh)), v; rewrite (K _ eq_refl), Hs;
           split; [reflexivity|]; split; [exact B|]; split; [apply agree_refl|]; split; [lia|]; apply good_bind; [exact G|]; exists sh; split; [reflexivity | exact F] end).
    destruct (look e z) as [a|] eqn:L; [|exact I]. destruct (G _ _ L) as (y & Hy & F). right. exists (bind st x y), v. cbn. rewrite Hy.
    repeat split; auto using agree_refl, good_bind.
  - destruct (aint e i) as [[l h]|] eqn:E; [|exact I]. destruct (aint_ok e v st B G _ _ _ E) as (z & Hz & R). right. exists (bind st x (VInt z)), v.
    cbn. rewrite Hz. repeat split; auto using agree_refl. apply good_bind; [exact G|]. exists z. auto.
  - destruct (aeval e y) as [[|[n|] [|? ?]]|] eqn:E; try exact I.
    destruct (ge0 n && wfl nx n && forallb (fun p => wfa nx (snd p)) e && Nat.leb (List.length mins) nx) eqn:Q; [|exact I].
    apply andb_true_iff in Q as [Q Q4]. apply andb_true_iff in Q as [Q Q3]. apply andb_true_iff in Q as [Q1 Q2].
    apply Nat.leb_le in Q4. rewrite forallb_forall in Q3. apply (ge0_ok v) in Q1; [|exact B].
    destruct (aeval_ok e v st B G _ _ E) as (sh & Hs & F). inversion F as [|? z ? ? Az F']; subst. inversion F'; subst. cbn in Az.
    set (l := map (o_mask w (clk st)) (seq 0 (Z.to_nat z))).
    set (v' := fun k => if Nat.eqb k nx then count true l else if Nat.eqb k (S nx) then count false l else v k).
    assert (A : agree nx v v').
    { intros k Hk. unfold v'. replace (Nat.eqb k nx) with false by (symmetry; apply Nat.eqb_neq; lia).
      replace (Nat.eqb k (S nx)) with false by (symmetry; apply Nat.eqb_neq; lia). reflexivity. }
    assert (V1 : v' nx = count true l) by (unfold v'; rewrite Nat.eqb_refl; reflexivity).
    assert (V2 : v' (S nx) = count false l).
    { unfold v'. replace (Nat.eqb (S nx) nx) with false by (symmetry; apply Nat.eqb_neq; lia). rewrite Nat.eqb_refl. reflexivity. }
    right. exists (tick (bind st x (VMask l))), v'. cbn [run]. rewrite Hs. split; [reflexivity|]. split; [|split; [exact A|split; [lia|]]].
    + intro k. destruct (Nat.lt_ge_cases k nx) as [Hk|Hk]; [rewrite A by exact Hk; apply B|].
      rewrite nth_overflow by lia. unfold v'. destruct (Nat.eqb k nx); [apply count_nonneg|]. destruct (Nat.eqb k (S nx)); [apply count_nonneg|].
      specialize (B k). rewrite nth_overflow in B by lia. exact B.
    + assert (G2 : good v' e st).
      { intros u c L. destruct (G _ _ L) as (k & Hk & Fk). exists k. split; [exact Hk|]. apply (wfa_ok _ _ _ _ _ A (Q3 _ (look_in _ _ _ L))). exact Fk. }
      intros u c L. apply (good_bind v' e st x (AMask n (lvar nx) (lvar (S nx))) (VMask l) G2); [|exact L].
      exists l. split; [reflexivity|]. rewrite !leval_var, V1, V2, (leval_agree _ _ _ _ A Q2). split; [|auto].
      unfold l. rewrite map_length, seq_length. lia.
  - destruct (look e x) as [[d| | |]|] eqn:L; try exact I. destruct (aeval e y) as [s|] eqn:E; [|exact I].
    destruct (aselect e d l) as [t|] eqn:T; [|exact I]. destruct (ainto t s) eqn:Q; [|exact I].
    destruct (G _ _ L) as (k & Hk & sh & -> & F). destruct (aeval_ok e v st B G _ _ E) as (s' & Hs & Fs).
    destruct (aselect_ok e v st B G _ _ _ _ F T) as (t' & Ht & Ft). right. exists st, v. cbn [run]. rewrite Hk, Hs, Ht, (ainto_ok v _ _ _ _ Fs Ft Q).
    repeat split; auto using agree_refl.
  - destruct (look e x) as [[d| | |]|] eqn:L; try exact I. destruct (aint e i) as [[l h]|] eqn:Ei; [|exact I].
    destruct (aeval e y) as [[|? ?]|] eqn:E; try exact I. destruct (anelem d) as [n|] eqn:Nn; [|exact I].
    destruct (ge0 l && ge0 (lsub (lsub n (k_ 1)) h)) eqn:Q; [|exact I].
    destruct (G _ _ L) as (k & Hk & sh & -> & F). destruct (aeval_ok e v st B G _ _ E) as (s' & Hs & Fs). inversion Fs; subst.
    destruct (aint_ok e v st B G _ _ _ Ei) as (z & Hz & R). right. exists st, v. cbn [run].
    rewrite Hk, Hs, Hz, (anelem_ok v _ _ _ F Nn), (in_range v B _ _ _ _ R Q). repeat split; auto using agree_refl.
  - destruct (look e x) as [[[|[n|] [|? ?]]| | |]|] eqn:L; try exact I. destruct (look e m) as [[| | |n' p q]|] eqn:Lm; try exact I.
    destruct (aeval e y) as [s|] eqn:E; [|exact I]. destruct (leq n n' && ainto [Some (if pos then p else q)] s) eqn:Q; [|exact I].
    apply andb_true_iff in Q as [Q1 Q2]. destruct (G _ _ L) as (k & Hk & sh & -> & F). inversion F as [|? z ? ? Az F']; subst. inversion F'; subst.
    destruct (G _ _ Lm) as (km & Hkm & lm & -> & M1 & M2 & M3). destruct (aeval_ok e v st B G _ _ E) as (s' & Hs & Fs).
    right. exists st, v. cbn [run]. rewrite Hk, Hkm, Hs. apply (leq_ok v) in Q1. cbn in Az.
    replace (z =? Z.of_nat (List.length lm)) with true by (symmetry; apply Z.eqb_eq; lia).
    rewrite (ainto_ok v s [Some (if pos then p else q)] s' [count pos lm] Fs); [|constructor; [cbn; destruct pos; assumption | constructor] | exact Q2].
    cbn [andb]. repeat split; auto using agree_refl.
  - destruct (aeval e c) as [d|] eqn:E; [|exact I]. destruct (forallb isone d) eqn:Q; [|exact I].
    destruct (aeval_ok e v st B G _ _ E) as (s & Hs & Fs).
    assert (O : forallb (Z.eqb 1) s = true).
    { clear E Hs. induction Fs as [|o z d s Ho Fs IH]; cbn in *; [reflexivity|]. apply andb_true_iff in Q as [Q1 Q2].
      rewrite (isone_ok v _ _ Ho Q1). cbn. exact (IH Q2). }
    assert (G' : good v e (tick st)) by exact G.
    specialize (IHa nx e v (tick st) B G'). specialize (IHb nx e v (tick st) B G').
    assert (RA : o_if w (clk st) = true -> run w (If c a b) st = run w a (tick st)) by (intro K; cbn [run]; rewrite Hs, O, K; reflexivity).
    assert (RB : o_if w (clk st) = false -> run w (If c a b) st = run w b (tick st)) by (intro K; cbn [run]; rewrite Hs, O, K; reflexivity).
    destruct (chk nx e a) as [| |na ea]; destruct (chk nx e b) as [| |nb eb]; try exact I;
      destruct (o_if w (clk st)) eqn:K; unfold holds in *;
      try (rewrite (RA eq_refl)); try (rewrite (RB eq_refl)); try (left; assumption); try assumption;
      first
        [ destruct IHa as [HR|(st' & v' & HD & B' & A & Le & Gn)]; [left; exact HR|]; right; exists st', v;
          split; [exact HD|]; split; [exact B|]; split; [apply agree_refl|]; split; [lia|]; eapply meet_l; eassumption
        | destruct IHb as [HR|(st' & v' & HD & B' & A & Le & Gn)]; [left; exact HR|]; right; exists st', v;
          split; [exact HD|]; split; [exact B|]; split; [apply agree_refl|]; split; [lia|]; eapply meet_r; eassumption ].
  - destruct (aint e hi) as [[l h]|] eqn:E; [|exact I]. destruct (aint_ok e v st B G _ _ _ E) as (z & Hz & R).
    assert (K : forall k s, 0 <= k <= leval v h - 1 -> good v e s -> good v ((x, AInt (k_ 0) (lsub h (k_ 1))) :: e) (bind s x (VInt k))).
    { intros k s Hk Gs. apply good_bind; [exact Gs|]. exists k. rewrite leval_sub, !leval_k. auto. }
    set (e1 := (x, AInt (k_ 0) (lsub h (k_ 1))) :: e) in *.
    assert (Step : chk nx e1 b <> Bad -> (forall nx' e', chk nx e1 b = Live nx' e' -> keeps nx e e' = true) ->
              forall k s, 0 <= k <= leval v h - 1 -> good v e s -> run w b (bind s x (VInt k)) = Raised \/ exists s', run w b (bind s x (VInt k)) = Done s' /\ good v e s').
    { intros NB KP k s Hk Gs. specialize (IHb nx e1 v (bind s x (VInt k)) B (K k s Hk Gs)).
      destruct (chk nx e1 b) as [| |nx' e'] eqn:C; [congruence | left; exact IHb |].
      destruct IHb as [HR|(s' & v' & HD & B' & A & Le & Gn)]; [left; exact HR | right]. exists s'. split; [exact HD|].
      exact (keeps_ok _ _ _ _ _ _ A (KP _ _ eq_refl) Gn). }
    assert (Fin : chk nx e1 b <> Bad -> (forall nx' e', chk nx e1 b = Live nx' e' -> keeps nx e e' = true) -> holds w (For x hi b) nx v st (Live nx e)).
    { intros NB KP. unfold holds. cbn [run]. rewrite Hz.
      destruct (Z.le_gt_cases z 0) as [Hz0|Hz0].
      - replace (Z.to_nat z) with 0%nat by lia. cbn. right. exists st, v. repeat split; auto using agree_refl.
      - destruct (rounds_ok (run w b) x v e h (Step NB KP) (Z.to_nat z) 0 st) as [HR|(s' & HD & Gn)]; [lia | lia | exact G | left; exact HR | right].
        exists s', v. repeat split; auto using agree_refl. }
    destruct (chk nx e1 b) as [| |nx' e'] eqn:C; [exact I | apply Fin; congruence |].
    destruct (keeps nx e e') eqn:KP; [|exact I]. apply Fin; [congruence|]. intros ? ? Q. injection Q as <- <-. exact KP.
Qed.

(** ** Methods *)
Definition abs (d : decl) : av := match d with Scalar => AArr [] | Array l => AArr (map Some l) | Index n lo hi => AIdx n lo hi end.
Lemma abs_ok : forall v d x, fits v (abs d) x <-> has_shape v d x.
Proof.
  intros v [|l|n lo hi] x; cbn [abs fits has_shape]; [| |tauto].
  - split; [intros (sh & -> & F); inversion F; reflexivity | intros ->; exists []; split; [reflexivity | constructor]].
  - assert (E : forall sh, Forall2 (dok v) (map Some l) sh <-> sh = map (leval v) l).
    { induction l as [|a l IH]; intro sh; cbn.
      - split; [intro F; inversion F; reflexivity | intros ->; constructor].
      - split; [intro F; inversion F as [|? z ? s A F']; subst; cbn in A; rewrite A; f_equal; apply IH; exact F' |
                intros ->; constructor; [reflexivity | apply IH; reflexivity]]. }
    split; [intros (sh & -> & F); apply E in F; rewrite F; reflexivity | intros ->; eexists; split; [reflexivity|]; apply E; reflexivity].
Qed.
Fixpoint initial (t : table) (l : list (string * positive)) : option env :=
  match l with
  | [] => Some []
  | (s, x) :: r => match find t s, initial t r with Some d, Some e => Some ((x, abs d) :: e) | _, _ => None end
  end.
Fixpoint final (t : table) (nx : nat) (e : env) (l : list (string * positive)) : bool :=
  match l with
  | [] => true
  | (s, x) :: r =>
      match find t s, look e x with Some d, Some a => aeq a (abs d) && wfa nx (abs d) | _, _ => false end && final t nx e r
  end.
Definition nosize : nat := 5.
Definition check (t : table) (m : method) : bool :=
  match initial t (m_attrs m) with
  | Some e => match chk nosize e (m_body m) with Live _ e' => final t nosize e' (m_attrs m) | Dead => true | Bad => false end
  | None => false
  end.
Lemma initial_ok : forall t v a, shaped t v a -> forall l e, initial t l = Some e -> forall k, good v e (mkS k (load l a)).
Proof.
  intros t v a HS. induction l as [|[s x] l IH]; intros e E k; cbn [initial load] in *.
  - injection E as <-. intros x y L. discriminate.
  - destruct (find t s) as [d|] eqn:Fd; [|discriminate]. destruct (initial t l) as [e0|]; [|discriminate]. injection E as <-.
    intros y b L. cbn in L |- *. destruct (Pos.eqb y x).
    + injection L as <-. destruct (HS _ _ Fd) as (z & Hz & Q). exists z. split; [exact Hz|]. apply abs_ok; exact Q.
    + exact (IH _ eq_refl k _ _ L).
Qed.
Lemma final_ok : forall t v v' a f l e nx, shaped t v a -> agree nx v v' -> final t nx e l = true ->
  (forall x b, look e x = Some b -> exists y, f x = Some y /\ fits v' b y) -> shaped t v (save l f a).
Proof.
  intros t v v' a f l e nx HS A. induction l as [|[s x] l IH]; intros HF G; cbn [save final] in *; [exact HS|].
  apply andb_true_iff in HF as [F1 F2]. destruct (find t s) as [d|] eqn:Fd; [|discriminate]. destruct (look e x) as [b|] eqn:L; [|discriminate].
  apply andb_true_iff in F1 as [E W]. intros s' d' Fd'. destruct (String.eqb s' s) eqn:Q.
  - apply String.eqb_eq in Q. subst. rewrite Fd in Fd'. injection Fd' as <-. destruct (G _ _ L) as (y & Hy & Fy).
    exists y. split; [exact Hy|]. apply abs_ok. apply (wfa_ok _ _ _ _ _ A W). exact (aeq_ok _ _ _ _ E Fy).
  - exact (IH F2 G s' d' Fd').
Qed.
Definition fine (t : table) (v : sizes) (r : result) : Prop :=
  match r with Returned a => shaped t v a | Raises => True | Faults => False end.
Theorem check_call : forall t m v a w, check t m = true -> bounded v -> shaped t v a -> fine t v (call w m a).
Proof.
  unfold check, call. intros t m v a w C B HS. destruct (initial t (m_attrs m)) as [e|] eqn:E; [|discriminate].
  pose proof (initial_ok t v a HS _ _ E 0%nat) as G. pose proof (chk_ok w (m_body m) nosize e v _ B G) as K.
  destruct (chk nosize e (m_body m)) as [| |nx' e']; cbn in K; [discriminate | rewrite K; exact I |].
  destruct K as [->|(st' & v' & -> & B' & A & Le & G')]; [exact I|]. cbn. exact (final_ok _ _ _ _ _ _ _ _ HS A C G').
Qed.
Theorem check_calls : forall t m v ws a, check t m = true -> bounded v -> shaped t v a -> fine t v (calls ws m a).
Proof.
  intros t m v ws. induction ws as [|w ws IH]; intros a C B HS; cbn [calls]; [exact HS|].
  pose proof (check_call t m v a w C B HS) as K. destruct (call w m a) as [a'| |]; cbn in K; [exact (IH a' C B K) | exact I | destruct K].
Qed.
End Check.

(** ** Programs that cannot succeed *)
Fixpoint flat (p : stmt) : list stmt := match p with Seq a b => flat a ++ flat b | Skip => [] | _ => [p] end.
Fixpoint runl (w : oracle) (l : list stmt) (st : state) : outcome :=
  match l with [] => Done st | p :: l => match run w p st with Done st => runl w l st | r => r end end.
Lemma runl_app : forall w a b st, runl w (a ++ b) st = match runl w a st with Done st => runl w b st | r => r end.
Proof. induction a as [|p a IH]; intros b st; cbn; [reflexivity|]. destruct (run w p st); auto. Qed.
Lemma run_flat : forall w p st, run w p st = runl w (flat p) st.
Proof.
  intros w. induction p as [|a IHa b IHb| |x y|x i|x y|x l y|x i y|x m pos y|c a IHa b IHb|x hi b IHb]; intro st;
    try reflexivity; try (cbn [flat runl]; match goal with |- _ = match ?r with _ => _ end => destruct r; reflexivity end).
  cbn [run flat]. rewrite runl_app, <- IHa. destruct (run w a st); auto.
Qed.
Fixpoint noraise (p : stmt) : bool :=
  match p with Raise => false | Seq a b => noraise a && noraise b | If _ a b => noraise a && noraise b | For _ _ b => noraise b | _ => true end.
Fixpoint leaves (x : positive) (p : stmt) : bool :=
  match p with
  | Seq a b => leaves x a && leaves x b
  | If _ a b => leaves x a && leaves x b
  | For y _ b => negb (Pos.eqb x y) && leaves x b
  | Let y _ => negb (Pos.eqb x y) | LetInt y _ => negb (Pos.eqb x y) | MkMask y _ => negb (Pos.eqb x y)
  | _ => true
  end.
Ltac bust := repeat match goal with |- context [match ?x with _ => _ end] => destruct x end.
Lemma noraise_ok : forall w p st, noraise p = true -> run w p st <> Raised.
Proof.
  intros w. induction p as [|a IHa b IHb| |x y|x i|x y|x l y|x i y|x m pos y|c a IHa b IHb|x hi b IHb]; intros st NR; cbn [noraise] in NR; cbn [run];
    try discriminate; try (bust; discriminate).
  - apply andb_true_iff in NR as [NA NB]. specialize (IHa st NA). destruct (run w a st) as [s'| |] eqn:E; [exact (IHb s' NB) | congruence | discriminate].
  - apply andb_true_iff in NR as [NA NB]. destruct (eval st c) as [s|]; [|discriminate]. destruct (forallb (Z.eqb 1) s); [|discriminate].
    destruct (o_if w (clk st)); auto.
  - destruct (ival st hi) as [z|]; [|discriminate]. generalize 0 as k. revert st. induction (Z.to_nat z) as [|n IHn]; intros st k; cbn [rounds]; [discriminate|].
    specialize (IHb (bind st x (VInt k)) NR). destruct (run w b (bind st x (VInt k))) as [s'| |] eqn:E; [apply IHn | congruence | discriminate].
Qed.
Lemma leaves_ok : forall w x p st st', leaves x p = true -> run w p st = Done st' -> vars st' x = vars st x.
Proof.
  intros w x. assert (SV : forall f y v, negb (Pos.eqb x y) = true -> setv f y v x = f x) by (intros f y v E; unfold setv; apply negb_true_iff in E; rewrite E; reflexivity).
  induction p as [|a IHa b IHb| |z y|z i|z y|z l y|z i y|z m pos y|c a IHa b IHb|z hi b IHb]; intros st st' LV R; cbn [leaves] in LV; cbn [run] in R.
  - injection R as <-. reflexivity.
  - apply andb_true_iff in LV as [LA LB]. destruct (run w a st) as [s1| |] eqn:E; try discriminate. rewrite (IHb _ _ LB R). exact (IHa _ _ LA E).
  - discriminate.
  - assert (K : exists v, st' = bind st z v).
    { destruct y; repeat match type of R with context [match ?q with _ => _ end] => destruct q end; try discriminate; injection R as <-; eauto. }
    destruct K as (v & ->). cbn. apply SV; exact LV.
  - destruct (ival st i); [|discriminate]. injection R as <-. cbn. apply SV; exact LV.
  - destruct (eval st y) as [[|n [|? ?]]|]; try discriminate. injection R as <-. cbn. apply SV; exact LV.
  - repeat match type of R with context [match ?q with _ => _ end] => destruct q end; try discriminate; injection R as <-; reflexivity.
  - repeat match type of R with context [match ?q with _ => _ end] => destruct q end; try discriminate; injection R as <-; reflexivity.
  - repeat match type of R with context [match ?q with _ => _ end] => destruct q end; try discriminate; injection R as <-; reflexivity.
  - apply andb_true_iff in LV as [LA LB]. destruct (eval st c) as [s|]; [|discriminate]. destruct (forallb (Z.eqb 1) s); [|discriminate].
    destruct (o_if w (clk st)); [exact (IHa _ _ LA R) | exact (IHb _ _ LB R)].
  - apply andb_true_iff in LV as [LZ LB]. destruct (ival st hi) as [n|]; [|discriminate].
    revert R. generalize 0 as k. revert st. induction (Z.to_nat n) as [|m IHm]; intros st k R; cbn [rounds] in R; [injection R as <-; reflexivity|].
    destruct (run w b (bind st z (VInt k))) as [s1| |] eqn:E; try discriminate. rewrite (IHm _ _ R), (IHb _ _ LB E). cbn. apply SV; exact LZ.
Qed.
Lemma runl_leaves : forall w x l st st', forallb (leaves x) l = true -> runl w l st = Done st' -> vars st' x = vars st x.
Proof.
  induction l as [|p l IH]; intros st st' F R; cbn in *; [injection R as <-; reflexivity|]. apply andb_true_iff in F as [F1 F2].
  destruct (run w p st) as [s1| |] eqn:E; try discriminate. rewrite (IH _ _ F2 R). exact (leaves_ok _ _ _ _ _ F1 E).
Qed.
Lemma runl_noraise : forall w l st, forallb noraise l = true -> runl w l st <> Raised.
Proof.
  induction l as [|p l IH]; intros st F; cbn in *; [discriminate|]. apply andb_true_iff in F as [F1 F2].
  pose proof (noraise_ok w p st F1). destruct (run w p st) as [s1| |]; [exact (IH s1 F2) | congruence | discriminate].
Qed.
(** The statement [s] is reached unless the program fails before; [xs]: the variables it depends on. *)
Lemma must_fail : forall w p k s xs st, nth_error (flat p) k = Some s ->
  forallb (fun q => noraise q && forallb (fun x => leaves x q) xs) (firstn k (flat p)) = true ->
  (forall st', (forall x, In x xs -> vars st' x = vars st x) -> run w s st' = Fault) -> run w p st = Fault.
Proof.
  intros w p k s xs st Hk HF HS. rewrite run_flat.
  assert (E : flat p = firstn k (flat p) ++ s :: skipn (S k) (flat p)).
  { rewrite <- (firstn_skipn k (flat p)) at 1. f_equal. clear -Hk. revert k Hk. induction (flat p) as [|q l IH]; intros [|k] Hk; cbn in *; try discriminate.
    - injection Hk as ->. reflexivity.
    - exact (IH _ Hk). }
  rewrite E, runl_app.
  assert (NR : forallb noraise (firstn k (flat p)) = true).
  { apply forallb_forall. intros q Hq. rewrite forallb_forall in HF. specialize (HF q Hq). apply andb_true_iff in HF as [F1 _]. exact F1. }
  pose proof (runl_noraise w _ st NR) as ND. destruct (runl w (firstn k (flat p)) st) as [s1| |] eqn:R; [|congruence|reflexivity].
  cbn [runl]. rewrite HS; [reflexivity|]. intros x Hx. eapply runl_leaves; [|exact R].
  apply forallb_forall. intros q Hq. rewrite forallb_forall in HF. specialize (HF q Hq). apply andb_true_iff in HF as [_ F2].
  rewrite forallb_forall in F2. exact (F2 x Hx).
Qed.
(** The largest of an empty array. *)
Lemma reduce_fails : forall w st x ua rho r1 r2, vars st ua = Some (VArr [2]) -> vars st rho = Some (VArr [1]) ->
  run w (Store x [At (IC 0)] (XBin (XBin (XRed true (XBin (XSel (XVar ua) [Sl (BIx (IC 1)) (BEnd 1) SOne]) (XSel (XVar rho) [Sl (BIx (IC 1)) BNone SOne]))) r1) r2)) st = Fault.
Proof.
  intros w st x ua rho r1 r2 H1 H2. cbn [run]. cbn [eval]. rewrite H1, H2. cbn.
  destruct (vars st x) as [[]|]; reflexivity.
Qed.
(** A loop over four index pairs whose last one is outside. *)
Lemma loop_fails : forall w st x lnk own b, noraise b = true -> leaves own b = true -> negb (Pos.eqb own x) = true ->
  forall l i0 i1 i2 i3, vars st lnk = Some (VIdx l) -> List.length l = 4%nat -> vars st own = Some (VIdx [i0; i1; i2; i3]) ->
  forall lam sh, vars st lam = Some (VArr sh) -> leaves lam b = true -> negb (Pos.eqb lam x) = true ->
  (forall st', vars st' own = Some (VIdx [i0; i1; i2; i3]) -> vars st' lam = Some (VArr sh) -> vars st' x = Some (VInt 3) -> run w b st' = Fault) ->
  run w (For x (ISize lnk) b) st = Fault.
Proof.
  intros w st x lnk own b NR LO NO l i0 i1 i2 i3 HL Hl HO lam sh HA LA NA HF. cbn [run ival]. rewrite HL. cbn [shape nelem fold_right]. rewrite Hl.
  change (Z.to_nat (Z.of_nat 4 * 1)) with 4%nat.
  assert (SV : forall s y k, negb (Pos.eqb y x) = true -> vars (bind s x (VInt k)) y = vars s y).
  { intros s y k E. cbn. unfold setv. apply negb_true_iff in E. rewrite E. reflexivity. }
  assert (St : forall s k s', vars s own = Some (VIdx [i0; i1; i2; i3]) -> vars s lam = Some (VArr sh) -> run w b (bind s x (VInt k)) = Done s' ->
             vars s' own = Some (VIdx [i0; i1; i2; i3]) /\ vars s' lam = Some (VArr sh)).
  { intros s k s' H1 H2 R. rewrite (leaves_ok _ _ _ _ _ LO R), (leaves_ok _ _ _ _ _ LA R), !SV by assumption. auto. }
  cbn [rounds].
  pose proof (noraise_ok w b (bind st x (VInt 0)) NR) as N0. destruct (run w b (bind st x (VInt 0))) as [s0| |] eqn:R0; [|congruence|reflexivity].
  destruct (St _ _ _ HO HA R0) as [O0 A0].
  pose proof (noraise_ok w b (bind s0 x (VInt (0 + 1))) NR) as N1. destruct (run w b (bind s0 x (VInt (0 + 1)))) as [s1| |] eqn:R1; [|congruence|reflexivity].
  destruct (St _ _ _ O0 A0 R1) as [O1 A1].
  pose proof (noraise_ok w b (bind s1 x (VInt (0 + 1 + 1))) NR) as N2. destruct (run w b (bind s1 x (VInt (0 + 1 + 1)))) as [s2| |] eqn:R2; [|congruence|reflexivity].
  destruct (St _ _ _ O1 A1 R2) as [O2 A2].
  rewrite HF; [reflexivity | rewrite SV by assumption; exact O2 | rewrite SV by assumption; exact A2 |].
  cbn. unfold setv. rewrite Pos.eqb_refl. reflexivity.
Qed.
