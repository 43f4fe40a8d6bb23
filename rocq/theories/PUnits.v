(** * C174: results do not depend on the choice of units *)
From Coq Require Import Reals ZArith QArith Qreals List Bool String Lra Lia.
From Verif Require Import MUnits MSrcUnits SUnits LUnits.
Import ListNotations.
Local Open Scope R_scope.

Lemma all_checked : forallb checked functions = true. Proof. vm_compute. reflexivity. Qed.

(** Start [f] in any memory, and in the memory holding the same quantities in another system of units: it ends in the
    same way (normally or with an error, having taken the same branches), and everything it leaves in the arrays of
    the caller and in its variables, results among them, is the same quantity again. *)
Theorem C174_units : forall f O Y B st, In f functions -> positive_system Y -> fits f B st ->
  let r := run O si (f_body f) st in let r' := run O Y (f_body f) (converted Y B st) in
  fst r' = fst r /\
  (forall b j, (b < next st)%nat -> heap (snd r') b j = factor Y (B b) * heap (snd r) b j) /\
  (forall x i, value (snd r') x i = factor Y (unit_of f x) * value (snd r) x i).
Proof. intros f O Y B st I. apply units_kept. apply (proj1 (forallb_forall _ _) all_checked f I). Qed.
Print Assumptions C174_units.

(** The units are the documented ones: parameters by name, results by function. *)
Definition named (f : func) : bool :=
  forallb (fun p => match documented (f_name f) (fst p) with Some u => ueqb u (unit_of f (snd p)) | None => false end) (f_params f)
  && (Nat.eqb (List.length (f_results f)) (List.length (result_units (f_name f) (List.length (f_results f))))
      && forallb (fun p => ueqb (unit_of f (fst p)) (snd p)) (combine (f_results f) (result_units (f_name f) (List.length (f_results f))))).
Lemma all_named : forallb named functions = true. Proof. vm_compute. reflexivity. Qed.
Lemma combine_map : forall (f : func) l us, List.length l = List.length us ->
  forallb (fun p => ueqb (unit_of f (fst p)) (snd p)) (combine l us) = true -> map (unit_of f) l = us.
Proof.
  intros f l. induction l as [|x l IH]; intros [|u us] L H; cbn in *; try discriminate; [reflexivity|].
  apply andb_true_iff in H. destruct H as [E H]. apply ueqb_eq in E. rewrite E, (IH us); [reflexivity|lia|exact H].
Qed.
Theorem C174_named : forall f, In f functions ->
  (forall p x, In (p, x) (f_params f) -> documented (f_name f) p = Some (unit_of f x)) /\
  map (unit_of f) (f_results f) = result_units (f_name f) (List.length (f_results f)).
Proof.
  intros f I. pose proof (proj1 (forallb_forall _ _) all_named f I) as H. unfold named in H.
  apply andb_true_iff in H. destruct H as [P H]. apply andb_true_iff in H. destruct H as [L R]. split.
  - intros p x J. pose proof (proj1 (forallb_forall _ _) P (p, x) J) as K. cbn [fst snd] in K.
    destruct (documented (f_name f) p) as [u|]; [|discriminate]. apply ueqb_eq in K. now rewrite K.
  - apply combine_map; [now apply Nat.eqb_eq|exact R].
Qed.
Print Assumptions C174_named.

(** The same holds where one function calls another one: in the caller, the variables that stand for its parameters and
    results have the documented units. *)
Definition calls_named (f : func) : bool :=
  match find (fun c => String.eqb (fst c) (f_name f)) calls with
  | None => false
  | Some (_, cs) => forallb (fun c => let '(g, ps, rs) := c in
      forallb (fun p => match documented g (fst p) with Some u => ueqb u (unit_of f (snd p)) | None => false end) ps
      && (Nat.eqb (List.length rs) (List.length (result_units g (List.length rs)))
          && forallb (fun p => ueqb (unit_of f (fst p)) (snd p)) (combine rs (result_units g (List.length rs))))) cs
  end.
Lemma all_calls_named : forallb calls_named functions = true. Proof. vm_compute. reflexivity. Qed.
Theorem C174_called : forall f, In f functions -> exists cs, In (f_name f, cs) calls /\
  forall g ps rs, In (g, ps, rs) cs ->
    (forall p x, In (p, x) ps -> documented g p = Some (unit_of f x)) /\
    map (unit_of f) rs = result_units g (List.length rs).
Proof.
  intros f I. pose proof (proj1 (forallb_forall _ _) all_calls_named f I) as H. unfold calls_named in H.
  destruct (find (fun c => String.eqb (fst c) (f_name f)) calls) as [[n cs]|] eqn:F; [|discriminate].
  apply find_some in F as [F E]. cbn in E. apply String.eqb_eq in E. subst n. exists cs. split; [exact F|].
  intros g ps rs J. pose proof (proj1 (forallb_forall _ _) H _ J) as K. cbn iota beta in K.
  apply andb_true_iff in K. destruct K as [P K]. apply andb_true_iff in K. destruct K as [L R]. split.
  - intros p x M. pose proof (proj1 (forallb_forall _ _) P (p, x) M) as Q. cbn [fst snd] in Q.
    destruct (documented g p) as [u|]; [|discriminate]. apply ueqb_eq in Q. now rewrite Q.
  - apply combine_map; [now apply Nat.eqb_eq|exact R].
Qed.
Print Assumptions C174_called.
(** 213 calls, among them the heat capacity in the mixing valve. *)
Example C174_calls_count : List.length (List.concat (map snd calls)) = 213%nat /\
  exists ps rs, In ("cp_water"%string, ps, rs) (snd (nth 34 calls (""%string, []))).
Proof. split; [vm_compute; reflexivity|]. exists [("T"%string, 5%positive)], [6%positive]. vm_compute. tauto. Qed.

(** No hidden conversion factors: constants with a unit are known quantities or coefficients of material properties. *)
Lemma all_admissible : forallb (fun f => forallb admissible (constants (f_body f))) functions = true.
Proof. vm_compute. reflexivity. Qed.
Theorem C174_constants : forall f c, In f functions -> In c (constants (f_body f)) ->
  (exists d, In d physical /\ (fst c == fst d)%Q /\ snd c = snd d) \/
  (exists u n, In u property_units /\ (n <= 10)%nat /\ snd c = uover u (upow kelvin (Z.of_nat n))).
Proof.
  intros f c I J. pose proof (proj1 (forallb_forall _ _) all_admissible f I) as H. cbn beta in H.
  pose proof (proj1 (forallb_forall _ _) H c J) as K. unfold admissible in K. apply orb_true_iff in K. destruct K as [K|K].
  - left. apply existsb_exists in K. destruct K as (d & D & E). apply andb_true_iff in E. destruct E as [E F].
    exists d. split; [exact D|]. split; [now apply Qeq_bool_iff|now apply ueqb_eq].
  - right. apply existsb_exists in K. destruct K as (u & D & E). apply existsb_exists in E. destruct E as (n & N & F).
    exists u, n. split; [exact D|]. split; [apply in_seq in N; lia|now apply ueqb_eq].
Qed.
Print Assumptions C174_constants.

(** 89 functions; nothing is left out but those listed in the tool. *)
Example C174_count : List.length functions = 89%nat /\ NoDup (map f_name functions).
Proof.
  split; [reflexivity|]. apply (NoDup_count_occ' string_dec). intros x H.
  assert (A : forallb (fun x => Nat.eqb (count_occ string_dec (map f_name functions) x) 1) (map f_name functions) = true)
    by (vm_compute; reflexivity).
  apply Nat.eqb_eq. exact (proj1 (forallb_forall _ _) A x H).
Qed.

(** Calls: one array per parameter. *)
Fixpoint given (l : list (string * positive)) (k : nat) : positive -> option (nat * (nat -> nat)) :=
  match l with [] => fun _ => None | (_, x) :: r => setv (given r (S k)) x (Some (k, fun i => i)) end.
Definition call (f : func) (a : nat -> R) : state := mkS (List.length (f_params f)) (given (f_params f) 0) (fun b _ => a b).
Definition block_units (f : func) (b : nat) : unit := unit_of f (snd (nth b (f_params f) (""%string, 1%positive))).
Lemma given_in : forall l k x b g, given l k x = Some (b, g) ->
  (k <= b < k + List.length l)%nat /\ snd (nth (b - k) l (""%string, 1%positive)) = x.
Proof.
  induction l as [|[p y] l IH]; intros k x b g H; cbn [given] in H; [discriminate|]. unfold setv in H.
  destruct (Pos.eqb_spec x y) as [->|N].
  - injection H as <- <-. cbn [List.length]. split; [lia|]. now rewrite Nat.sub_diag.
  - destruct (IH (S k) x b g H) as [L E]. cbn [List.length]. split; [lia|].
    replace (b - k)%nat with (S (b - S k)) by lia. exact E.
Qed.
(** Every call with one array per parameter is such a start, whatever the arrays hold. *)
Theorem C174_calls : forall f a, fits f (block_units f) (call f a).
Proof.
  intros f a x b g H. cbn in H. destruct (given_in _ _ _ _ _ H) as [L E]. unfold block_units.
  rewrite Nat.sub_0_r in E. rewrite E. split; [reflexivity|cbn; lia].
Qed.
Print Assumptions C174_calls.

(** A wrong program: a length added to an area. In metres 2 + 3 = 5; in millimetres 2000 + 3000000, not 5 units of
    anything: no unit makes the result the same quantity in both systems. *)
Definition wrong : stmt := Let 3 (Add (Var 1) (Var 2)).
Definition wrong_st : state :=
  mkS 2 (fun x => if Pos.eqb x 1 then Some (0%nat, fun i => i) else if Pos.eqb x 2 then Some (1%nat, fun i => i) else None)
      (fun b _ => match b with 0%nat => 2 | _ => 3 end).
Definition millimetre_system : system := mkSys 1000 1 1 1.
Definition wrong_units (b : nat) : unit := match b with 0%nat => metre | _ => square_metre end.
Lemma factor_metre : forall c, 0 < c -> factor (mkSys c 1 1 1) metre = c.
Proof.
  intros c C. unfold factor, metre. cbn [u_m u_kg u_s u_K c_m c_kg c_s c_K]. 
  replace (powerRZ (sqrt c) 2) with (sqrt c * sqrt c) by (unfold powerRZ; change (Pos.to_nat 2) with 2%nat; unfold pow; ring).
  rewrite sqrt_sqrt by lra. unfold powerRZ. ring.
Qed.
Example C174_wrong : forall O, exists x y,
  value (snd (run O millimetre_system wrong (converted millimetre_system wrong_units wrong_st))) 3 0%nat = x /\
  value (snd (run O si wrong wrong_st)) 3 0%nat = y /\ y = 5 /\ x = 3002000 /\
  forall k : Z, x <> powerRZ 1000 k * y.
Proof.
  intros O. exists 3002000, 5. unfold wrong, wrong_st. cbn [run snd eval].
  assert (M : factor millimetre_system metre = 1000) by (apply factor_metre; lra).
  assert (A : factor millimetre_system square_metre = 1000000).
  { unfold square_metre. rewrite factor_times, M; [lra|]. unfold positive_system. cbn. lra. }
  split; [unfold value; cbn; unfold seth, value; cbn; rewrite M, A; lra|].
  split; [unfold value; cbn; unfold seth, value; cbn; lra|]. split; [reflexivity|]. split; [reflexivity|].
  intros k E. destruct k as [|p|p]; cbn [powerRZ] in E; [lra| |].
  - destruct (Pos.to_nat p) as [|[|n]] eqn:P; [lia|cbn in E; lra|]. cbn [pow] in E.
    assert (1 <= 1000 ^ n) by (apply pow_R1_Rle; lra). lra.
  - assert (1 <= 1000 ^ Pos.to_nat p) by (apply pow_R1_Rle; lra).
    assert (/ 1000 ^ Pos.to_nat p <= 1) by (apply Rle_trans with (/ 1); [apply Rinv_le_contravar; lra|rewrite Rinv_1; lra]). lra.
Qed.
