(** * Units: a check of programs, and what it guarantees *)
From Coq Require Import Reals ZArith QArith Qreals List Bool String Lra Lia FunctionalExtensionality.
From Verif Require Import MUnits.
Import ListNotations.
Local Open Scope R_scope.

Lemma ueqb_eq : forall a b, ueqb a b = true -> a = b.
Proof.
  intros [a1 a2 a3 a4] [b1 b2 b3 b4]. unfold ueqb. cbn. rewrite !andb_true_iff, !Z.eqb_eq. now intros [[[-> ->] ->] ->].
Qed.

(** Unit of an expression; [None]: no unit. *)
Section Check.
Variable G : positive -> unit.
Fixpoint infer (e : expr) : option unit :=
  match e with
  | Var x => Some (G x)
  | Const _ u => Some u
  | Add a b | Sub a b | Max a b | Min a b =>
      match infer a, infer b with Some u, Some v => if ueqb u v then Some u else None | _, _ => None end
  | Mul a b => match infer a, infer b with Some u, Some v => Some (utimes u v) | _, _ => None end
  | Div a b => match infer a, infer b with Some u, Some v => Some (uover u v) | _, _ => None end
  | Neg a | Abs a => infer a
  | Pow a n => match infer a with Some u => Some (upow u n) | None => None end
  | Sqrt a => match infer a with Some u => if ueven u then Some (uhalf u) else None | None => None end
  | Fn _ l => if plain l then Some none else None
  | Sel _ a l => if plain l then infer a else None
  | Red _ _ a => infer a
  | Cmp _ a b => match infer a, infer b with Some u, Some v => if ueqb u v then Some none else None | _, _ => None end
  | Ite c a b =>
      match infer c, infer a, infer b with
      | Some w, Some u, Some v => if ueqb w none && ueqb u v then Some u else None
      | _, _, _ => None
      end
  end
with plain (l : exprs) : bool :=
  match l with
  | Nil => true
  | Cons e r => match infer e with Some u => ueqb u none && plain r | None => false end
  end.
Fixpoint check (p : stmt) : bool :=
  match p with
  | Let x e => match infer e with Some u => ueqb u (G x) | None => false end
  | View x y _ idx => ueqb (G x) (G y) && plain idx
  | Store x _ idx e => plain idx && match infer e with Some u => ueqb u (G x) | None => false end
  | If c a b => match infer c with Some u => ueqb u none && check a && check b | None => false end
  | For x _ idx b => ueqb (G x) none && plain idx && check b
  | Seq a b => check a && check b
  | Frame b => check b
  | Skip | Break | Return | Raise => true
  end.
End Check.

(** ** Factors *)
Section Sound.
Variable O : oracle.
Variable Y : system.
Hypothesis pos : positive_system Y.

Lemma root_pos : 0 < sqrt (c_m Y) /\ 0 < sqrt (c_kg Y) /\ 0 < sqrt (c_s Y) /\ 0 < sqrt (c_K Y).
Proof. destruct pos as (A & B & C & D). repeat split; now apply sqrt_lt_R0. Qed.
Lemma factor_pos : forall u, 0 < factor Y u.
Proof.
  intros u. destruct root_pos as (A & B & C & D). unfold factor. repeat apply Rmult_lt_0_compat; now apply powerRZ_lt.
Qed.
Lemma factor_times : forall a b, factor Y (utimes a b) = factor Y a * factor Y b.
Proof.
  intros a b. destruct root_pos as (A & B & C & D). unfold factor, utimes. cbn [u_m u_kg u_s u_K].
  rewrite !powerRZ_add by lra. ring.
Qed.
Lemma powerRZ_mult_exp : forall x n m, 0 < x -> powerRZ x (n * m) = powerRZ (powerRZ x m) n.
Proof.
  intros x n m H. rewrite (powerRZ_Rpower x) by exact H. rewrite (powerRZ_Rpower (powerRZ x m)) by (now apply powerRZ_lt).
  rewrite (powerRZ_Rpower x m) by exact H. rewrite Rpower_mult, mult_IZR. f_equal. ring.
Qed.
Lemma factor_pow : forall a n, factor Y (upow a n) = powerRZ (factor Y a) n.
Proof.
  intros a n. destruct root_pos as (A & B & C & D). unfold factor, upow. cbn [u_m u_kg u_s u_K].
  rewrite !powerRZ_mult, !powerRZ_mult_exp by assumption. reflexivity.
Qed.
Lemma factor_none : factor Y none = 1.
Proof. unfold factor, none. cbn. ring. Qed.
Lemma factor_over : forall a b, factor Y (uover a b) = factor Y a / factor Y b.
Proof.
  intros a b. unfold uover. rewrite factor_times, factor_pow. cbn [powerRZ]. change (Pos.to_nat 1) with 1%nat. rewrite pow_1. reflexivity.
Qed.
Lemma sqrt_powerRZ : forall x z, 0 < x -> Z.even z = true -> powerRZ x (Z.div2 z) * powerRZ x (Z.div2 z) = powerRZ x z.
Proof.
  intros x z H E. rewrite <- powerRZ_add by lra. f_equal. apply Z.even_spec in E. destruct E as [k ->].
  replace (2 * k)%Z with (Z.double k) by (rewrite Z.double_spec; reflexivity). rewrite Z.div2_div. rewrite Z.double_spec.
  rewrite (Z.mul_comm 2 k), Z.div_mul by lia. lia.
Qed.
Lemma factor_half : forall a, ueven a = true -> factor Y (uhalf a) = sqrt (factor Y a).
Proof.
  intros a E. symmetry. apply sqrt_lem_1; [apply Rlt_le, factor_pos|apply Rlt_le, factor_pos|].
  unfold ueven in E. rewrite !andb_true_iff in E. destruct E as [[[E1 E2] E3] E4]. destruct root_pos as (A & B & C & D).
  unfold factor, uhalf. cbn [u_m u_kg u_s u_K].
  rewrite <- (sqrt_powerRZ _ _ A E1), <- (sqrt_powerRZ _ _ B E2), <- (sqrt_powerRZ _ _ C E3), <- (sqrt_powerRZ _ _ D E4). ring.
Qed.
Lemma factor_si : forall u, factor si u = 1.
Proof.
  intros u. unfold factor, si. cbn [c_m c_kg c_s c_K]. rewrite sqrt_1.
  assert (P : forall z, powerRZ 1 z = 1) by (intros z; destruct z; cbn [powerRZ]; rewrite ?pow1; [reflexivity|reflexivity|apply Rinv_1]).
  rewrite !P. ring.
Qed.

(** ** Operations *)
Lemma reduce_scale : forall op a b c p, 0 < c -> (forall i, b i = c * a i) -> reduce op b p = c * reduce op a p.
Proof.
  intros op a b c [i l] C E. unfold reduce. cbn [fst snd]. induction l as [|j l IH]; cbn [fold_right].
  - destruct op; [ring|apply E|apply E].
  - rewrite IH. destruct op; rewrite E.
    + ring.
    + rewrite RmaxRmult by lra. reflexivity.
    + unfold Rmin. destruct (Rle_dec (c * a j) (c * _)) as [H|H], (Rle_dec (a j) _) as [K|K]; try reflexivity.
      * exfalso. apply K. now apply Rmult_le_reg_l in H.
      * exfalso. apply H. apply Rmult_le_compat_l; lra.
Qed.
Lemma cmp_scale : forall op a b c, 0 < c -> cmp op (c * a) (c * b) = cmp op a b.
Proof.
  intros op a b c C.
  assert (L : forall x y, c * x < c * y <-> x < y) by (intros x y; split; intros H; [now apply Rmult_lt_reg_l in H|now apply Rmult_lt_compat_l]).
  assert (M : forall x y, c * x <= c * y <-> x <= y) by (intros x y; split; intros H; [now apply Rmult_le_reg_l in H|apply Rmult_le_compat_l; lra]).
  assert (N : forall x y, c * x = c * y <-> x = y) by (intros x y; split; intros H; [apply Rmult_eq_reg_l in H; [exact H|lra]|now subst]).
  destruct op; cbn [cmp].
  - destruct (Rlt_dec (c * a) (c * b)) as [H|H], (Rlt_dec a b) as [K|K]; try reflexivity; rewrite L in H; tauto.
  - destruct (Rle_dec (c * a) (c * b)) as [H|H], (Rle_dec a b) as [K|K]; try reflexivity; rewrite M in H; tauto.
  - destruct (Rlt_dec (c * b) (c * a)) as [H|H], (Rlt_dec b a) as [K|K]; try reflexivity; rewrite L in H; tauto.
  - destruct (Rle_dec (c * b) (c * a)) as [H|H], (Rle_dec b a) as [K|K]; try reflexivity; rewrite M in H; tauto.
  - destruct (Req_EM_T (c * a) (c * b)) as [H|H], (Req_EM_T a b) as [K|K]; try reflexivity; rewrite N in H; tauto.
  - destruct (Req_EM_T (c * a) (c * b)) as [H|H], (Req_EM_T a b) as [K|K]; try reflexivity; rewrite N in H; tauto.
Qed.

(** ** States that describe the same quantities *)
Record same (G : positive -> unit) (B : nat -> unit) (s t : state) : Prop := {
  s_next : next t = next s;
  s_vars : vars t = vars s;
  s_heap : forall b j, heap t b j = factor Y (B b) * heap s b j;
  s_unit : forall x b g, vars s x = Some (b, g) -> B b = G x /\ (b < next s)%nat }.

Scheme expr_ind2 := Induction for expr Sort Prop with exprs_ind2 := Induction for exprs Sort Prop.
Combined Scheme expr_both from expr_ind2, exprs_ind2.

Lemma eval_scale : forall G B s t, same G B s t ->
  (forall e u, infer G e = Some u -> forall i, eval O Y t e i = factor Y u * eval O si s e i) /\
  (forall l, plain G l = true -> evals O Y t l = evals O si s l).
Proof.
  intros G B s t [SN SV SH SU].
  apply (expr_both (fun e => forall u, infer G e = Some u -> forall i, eval O Y t e i = factor Y u * eval O si s e i)
                   (fun l => plain G l = true -> evals O Y t l = evals O si s l)); cbn [infer plain eval evals].
  - intros x u H i. injection H as <-. unfold value. rewrite SV. destruct (vars s x) as [[b g]|] eqn:E; [|ring].
    rewrite SH. destruct (SU x b g E) as [-> _]. reflexivity.
  - intros q v u H i. injection H as <-. rewrite factor_si. ring.
  - intros a IHa b IHb u H i. destruct (infer G a) as [ua|]; [|discriminate]. destruct (infer G b) as [ub|]; [|discriminate].
    destruct (ueqb ua ub) eqn:E; [|discriminate]. injection H as <-. apply ueqb_eq in E. subst ub.
    rewrite (IHa _ eq_refl), (IHb _ eq_refl). ring.
  - intros a IHa b IHb u H i. destruct (infer G a) as [ua|]; [|discriminate]. destruct (infer G b) as [ub|]; [|discriminate].
    destruct (ueqb ua ub) eqn:E; [|discriminate]. injection H as <-. apply ueqb_eq in E. subst ub.
    rewrite (IHa _ eq_refl), (IHb _ eq_refl). ring.
  - intros a IHa b IHb u H i. destruct (infer G a) as [ua|]; [|discriminate]. destruct (infer G b) as [ub|]; [|discriminate].
    injection H as <-. rewrite (IHa _ eq_refl), (IHb _ eq_refl), factor_times. ring.
  - intros a IHa b IHb u H i. destruct (infer G a) as [ua|]; [|discriminate]. destruct (infer G b) as [ub|]; [|discriminate].
    injection H as <-. rewrite (IHa _ eq_refl), (IHb _ eq_refl), factor_over. unfold Rdiv. rewrite Rinv_mult. ring.
  - intros a IHa u H i. rewrite (IHa _ H). ring.
  - intros a IHa u H i. rewrite (IHa _ H), Rabs_mult, (Rabs_right (factor Y u)); [reflexivity|apply Rle_ge, Rlt_le, factor_pos].
  - intros a IHa b IHb u H i. destruct (infer G a) as [ua|]; [|discriminate]. destruct (infer G b) as [ub|]; [|discriminate].
    destruct (ueqb ua ub) eqn:E; [|discriminate]. injection H as <-. apply ueqb_eq in E. subst ub.
    rewrite (IHa _ eq_refl), (IHb _ eq_refl). apply RmaxRmult, Rlt_le, factor_pos.
  - intros a IHa b IHb u H i. destruct (infer G a) as [ua|]; [|discriminate]. destruct (infer G b) as [ub|]; [|discriminate].
    destruct (ueqb ua ub) eqn:E; [|discriminate]. injection H as <-. apply ueqb_eq in E. subst ub.
    rewrite (IHa _ eq_refl), (IHb _ eq_refl).
    pose proof (reduce_scale Mini (fun k => match k with 0%nat => eval O si s a i | _ => eval O si s b i end) _ (factor Y ua) (1, [0])%nat (factor_pos ua) (fun _ => eq_refl)) as R.
    cbn in R. exact R.
  - intros a IHa n u H i. destruct (infer G a) as [ua|]; [|discriminate]. injection H as <-. rewrite (IHa _ eq_refl), factor_pow.
    apply powerRZ_mult.
  - intros a IHa u H i. destruct (infer G a) as [ua|]; [|discriminate]. destruct (ueven ua) eqn:E; [|discriminate]. injection H as <-.
    rewrite (IHa _ eq_refl), (factor_half _ E). apply sqrt_mult_alt, Rlt_le, factor_pos.
  - intros site l IH u H i. change ((if plain G l then Some none else None) = Some u) in H.
    change (o_fn O site (next t) (evals O Y t l) i = factor Y u * o_fn O site (next s) (evals O si s l) i). destruct (plain G l); [|discriminate]. assert (E : u = none) by congruence. subst u. rewrite (IH eq_refl), factor_none, SN. ring.
  - intros site a IHa l IHl u H i. change ((if plain G l then infer G a else None) = Some u) in H.
    change (eval O Y t a (o_sel O site (next t) (evals O Y t l) i) = factor Y u * eval O si s a (o_sel O site (next s) (evals O si s l) i)). destruct (plain G l); [|discriminate]. rewrite (IHl eq_refl), SN. apply (IHa _ H).
  - intros op site a IHa u H i. rewrite SN. apply reduce_scale; [apply factor_pos|]. apply (IHa _ H).
  - intros op a IHa b IHb u H i. destruct (infer G a) as [ua|]; [|discriminate]. destruct (infer G b) as [ub|]; [|discriminate].
    destruct (ueqb ua ub) eqn:E; [|discriminate]. assert (E1 : u = none) by congruence. subst u. apply ueqb_eq in E. subst ub.
    rewrite (IHa _ eq_refl), (IHb _ eq_refl), factor_none, cmp_scale by apply factor_pos. ring.
  - intros c IHc a IHa b IHb u H i. destruct (infer G c) as [uc|]; [|discriminate]. destruct (infer G a) as [ua|]; [|discriminate].
    destruct (infer G b) as [ub|]; [|discriminate]. destruct (ueqb uc none) eqn:E1; [|discriminate].
    destruct (ueqb ua ub) eqn:E; [|discriminate]. cbn in H. injection H as <-. apply ueqb_eq in E. subst ub. apply ueqb_eq in E1. subst uc.
    rewrite (IHc _ eq_refl), factor_none, Rmult_1_l. destruct (Req_EM_T (eval O si s c i) 0); [apply (IHb _ eq_refl)|apply (IHa _ eq_refl)].
  - reflexivity.
  - intros e IHe l IHl H. change (match infer G e with Some u => ueqb u none && plain G l | None => false end = true) in H.
    change (eval O Y t e :: evals O Y t l = eval O si s e :: evals O si s l). destruct (infer G e) as [u|]; [|discriminate]. apply andb_true_iff in H. destruct H as [E P].
    apply ueqb_eq in E. subst u. rewrite (IHl P). f_equal. apply functional_extensionality. intros i.
    rewrite (IHe _ eq_refl), factor_none. ring.
Qed.

Definition within (n : nat) (B B' : nat -> unit) : Prop := forall b, (b < n)%nat -> B' b = B b.

Lemma fresh_same : forall G B s t x a a', same G B s t -> (forall i, a' i = factor Y (G x) * a i) ->
  exists B', same G B' (fresh s x a) (fresh t x a') /\ within (next s) B B' /\ (next s <= next (fresh s x a))%nat.
Proof.
  intros G B s t x a a' [SN SV SH SU] A. exists (fun b => if Nat.eqb b (next s) then G x else B b). split; [|split].
  - constructor; cbn [fresh next vars heap].
    + now rewrite SN.
    + now rewrite SN, SV.
    + intros b j. unfold seth. rewrite SN. destruct (Nat.eqb b (next s)); [apply A|apply SH].
    + intros y b g. unfold setv. destruct (Pos.eqb_spec y x) as [->|N].
      * intros H. injection H as <- <-. rewrite Nat.eqb_refl. split; [reflexivity|lia].
      * intros H. destruct (SU y b g H) as [U L]. destruct (Nat.eqb_spec b (next s)); [lia|]. split; [exact U|lia].
  - intros b L. destruct (Nat.eqb_spec b (next s)); [lia|reflexivity].
  - cbn. lia.
Qed.

Lemma rounds_same : forall G f f' pre pre' n k s t B,
  (forall s t B, same G B s t -> fst (f' t) = fst (f s) /\ exists B', same G B' (snd (f s)) (snd (f' t)) /\ within (next s) B B' /\ (next s <= next (snd (f s)))%nat) ->
  (forall k s t B, same G B s t -> exists B', same G B' (pre k s) (pre' k t) /\ within (next s) B B' /\ (next s <= next (pre k s))%nat) ->
  same G B s t ->
  fst (rounds f' pre' n k t) = fst (rounds f pre n k s) /\
  exists B', same G B' (snd (rounds f pre n k s)) (snd (rounds f' pre' n k t)) /\ within (next s) B B' /\ (next s <= next (snd (rounds f pre n k s)))%nat.
Proof.
  intros G f f' pre pre' n k s t B F P. revert k s t B. induction n as [|n IH]; intros k s t B H; cbn [rounds].
  - split; [reflexivity|]. exists B. split; [exact H|]. split; [intros b _; reflexivity|cbn; lia].
  - destruct (P k s t B H) as (B1 & H1 & W1 & L1). destruct (F _ _ _ H1) as [E (B2 & H2 & W2 & L2)].
    destruct (f (pre k s)) as [o s2], (f' (pre' k t)) as [o' t2]. cbn [fst snd] in *. subst o'.
    assert (W : within (next s) B B2) by (intros b L; rewrite W2 by lia; apply W1, L).
    destruct o; cbn [fst snd].
    + destruct (IH (S k) _ _ _ H2) as [E (B3 & H3 & W3 & L3)]. split; [exact E|]. exists B3. split; [exact H3|].
      split; [intros b L; rewrite W3 by lia; now apply W|lia].
    + split; [reflexivity|]. exists B2. split; [exact H2|]. split; [exact W|lia].
    + split; [reflexivity|]. exists B2. split; [exact H2|]. split; [exact W|lia].
    + split; [reflexivity|]. exists B2. split; [exact H2|]. split; [exact W|lia].
Qed.

Lemma run_same : forall G p s t B, check G p = true -> same G B s t ->
  fst (run O Y p t) = fst (run O si p s) /\
  exists B', same G B' (snd (run O si p s)) (snd (run O Y p t)) /\ within (next s) B B' /\ (next s <= next (snd (run O si p s)))%nat.
Proof.
  intros G p. induction p as [x e|x y site idx|x site idx e|c a IHa b IHb|x site idx body IH| |a IHa b IHb| | | |body IH];
    intros s t B C H; cbn [check] in C; cbn [run];
    try (split; [reflexivity|]; exists B; split; [exact H|]; split; [intros b _; reflexivity|cbn; lia]).
  - destruct (infer G e) as [u|] eqn:I; [|discriminate]. apply ueqb_eq in C. subst u. cbn [fst snd]. split; [reflexivity|].
    apply (fresh_same G B s t x _ _ H). intros i. apply (proj1 (eval_scale G B s t H) e _ I).
  - apply andb_true_iff in C. destruct C as [U P]. apply ueqb_eq in U. cbn [fst snd]. split; [reflexivity|]. exists B.
    rewrite (proj2 (eval_scale G B s t H) idx P). destruct H as [SN SV SH SU]. split; [|split; [intros b _; reflexivity|cbn; lia]].
    constructor; cbn [next vars heap]; [now rewrite SN|now rewrite SV, SN|exact SH|]. intros z b g. unfold setv. destruct (Pos.eqb_spec z x) as [->|N].
    + destruct (vars s y) as [[b' g']|] eqn:E; [|discriminate]. intros K. injection K as <- <-. rewrite U. destruct (SU y b' g' E). split; [assumption|lia].
    + intros K. destruct (SU z b g K). split; [assumption|lia].
  - apply andb_true_iff in C. destruct C as [P C]. destruct (infer G e) as [u|] eqn:I; [|discriminate]. apply ueqb_eq in C. subst u.
    rewrite (proj2 (eval_scale G B s t H) idx P). pose proof (proj1 (eval_scale G B s t H) e _ I) as V.
    pose proof H as [SN SV SH SU]. rewrite SV. destruct (vars s x) as [[b g]|] eqn:E; cbn [fst snd].
    + split; [reflexivity|]. exists B. split; [|split; [intros c _; reflexivity|cbn; lia]].
      constructor; cbn [next vars heap]; [exact SN|first [exact SV|reflexivity]| |exact SU]. intros c j. unfold seth. destruct (Nat.eqb_spec c b) as [->|N]; [|apply SH].
      rewrite SN. destruct (o_put O site _ _ g j); [|apply SH]. rewrite V. destruct (SU x b g E) as [-> _]. reflexivity.
    + split; [reflexivity|]. exists B. split; [exact H|]. split; [intros c _; reflexivity|cbn; lia].
  - destruct (infer G c) as [u|] eqn:I; [|discriminate]. apply andb_true_iff in C. destruct C as [C Cb]. apply andb_true_iff in C.
    destruct C as [U Ca]. apply ueqb_eq in U. subst u. rewrite (proj1 (eval_scale G B s t H) c _ I), factor_none, Rmult_1_l.
    destruct (Req_EM_T (eval O si s c 0%nat) 0); [now apply IHb|now apply IHa].
  - apply andb_true_iff in C. destruct C as [C Cb]. apply andb_true_iff in C. destruct C as [U P]. apply ueqb_eq in U.
    rewrite (proj2 (eval_scale G B s t H) idx P), (s_next _ _ _ _ H). apply (rounds_same G); [|intros k s1 t1 B1 H1|exact H].
    + intros s1 t1 B1 H1. now apply IH.
    + apply (fresh_same G B1 s1 t1 x _ _ H1). intros _. rewrite U, factor_none. ring.
  - apply andb_true_iff in C. destruct C as [Ca Cb]. destruct (IHa s t B Ca H) as [E (B1 & H1 & W1 & L1)].
    destruct (run O si a s) as [o s1], (run O Y a t) as [o' t1]. cbn [fst snd] in *. subst o'.
    destruct o; cbn [fst snd]; try (split; [reflexivity|]; exists B1; split; [exact H1|]; split; [exact W1|exact L1]).
    destruct (IHb s1 t1 B1 Cb H1) as [E (B2 & H2 & W2 & L2)]. split; [exact E|]. exists B2. split; [exact H2|].
    split; [intros b' L; rewrite W2 by lia; now apply W1|lia].
  - destruct (IH s t B C H) as [E (B1 & H1 & W1 & L1)].
    destruct (run O si body s) as [o s1], (run O Y body t) as [o' t1]. cbn [fst snd] in *. subst o'.
    destruct o; cbn [fst snd]; (split; [reflexivity|]; exists B1; split; [exact H1|]; split; [exact W1|exact L1]).
Qed.
End Sound.

(** ** Functions *)
Definition checked (f : func) : bool := check (unit_of f) (f_body f).
(** The state in SI units and in other units; [B]: the units of what the blocks hold. *)
Definition converted (Y : system) (B : nat -> unit) (st : state) : state :=
  mkS (next st) (vars st) (fun b j => factor Y (B b) * heap st b j).
(** Memory at the beginning: only parameters have values, with their units. *)
Definition fits (f : func) (B : nat -> unit) (st : state) : Prop :=
  forall x b g, vars st x = Some (b, g) -> B b = unit_of f x /\ (b < next st)%nat.

Theorem units_kept : forall f O Y B st, checked f = true -> positive_system Y -> fits f B st ->
  let r := run O si (f_body f) st in let r' := run O Y (f_body f) (converted Y B st) in
  fst r' = fst r /\
  (forall b j, (b < next st)%nat -> heap (snd r') b j = factor Y (B b) * heap (snd r) b j) /\
  (forall x i, value (snd r') x i = factor Y (unit_of f x) * value (snd r) x i).
Proof.
  intros f O Y B st C P F r r'.
  assert (H : same Y (unit_of f) B st (converted Y B st)) by (constructor; cbn; auto).
  destruct (run_same O Y P (unit_of f) (f_body f) st _ B C H) as [E (B' & S' & W & L)]. fold r in E, S', L. fold r' in E, S'.
  split; [exact E|]. destruct S' as [SN SV SH SU]. split.
  - intros b j Lb. rewrite SH, (W b Lb). reflexivity.
  - intros x i. unfold value. rewrite SV. destruct (vars (snd r) x) as [[b g]|] eqn:V; [|ring]. rewrite SH.
    destruct (SU x b g V) as [-> _]. reflexivity.
Qed.
