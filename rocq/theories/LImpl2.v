(** Implicit steps: ranges, Newton iteration (C110, C111, C114). *)
From Coq Require Import Reals List Bool Arith Lra Lia.
From Verif Require Import MFlow MWater MDiff MMix MHexNum MImpl SFlow LFlow LDiff LDiff4 LWater LHex LMix SMix SHexNum LHexNum LHexNum2 LHexNum3 LImpl.
Open Scope R_scope.

Lemma lamT_pos g junk Tx Tp p : hn_ok g -> hn_range g Tx Tp -> (forall k, 0 < junk k) ->
  0 < flat_lam (hn_n g) junk (hexn_lam Tx) (hexn_own (hn_n g) p).
Proof.
  intros G [WT _] J. unfold flat_lam.
  destruct (Nat.ltb_spec (hexn_own (hn_n g) p) (hn_n g * 2)) as [H|H]; [|apply J].
  set (k := hexn_own (hn_n g) p) in *. unfold flat, hexn_lam.
  replace (2 * (k mod 2) + 1)%nat with (S (2 * (k mod 2))) by lia.
  pose proof (Nat.mod_upper_bound k 2 ltac:(lia)).
  pose proof (lambda_bounds _ (WT (k / 2)%nat (2 * (k mod 2))%nat
    ltac:(apply Nat.div_lt_upper_bound; lia) ltac:(lia))). lra.
Qed.

Lemma imp_bound g junk io f B Tp y yp h sg b : hn_ok g -> hn_range g (ext_of (hn_n g) B y) Tp ->
  hflows_at (hn_n g) f -> (forall k, 0 < junk k) -> 0 <= h -> (sg = 1 \/ sg = -1) ->
  (forall i c, (i < hn_n g)%nat -> (c < 3)%nat ->
     imp_root (hexn_rate g junk io f B Tp) y yp h i c = 0) ->
  (forall i c, (i < hn_n g)%nat -> (c < 3)%nat -> sg * (yp i c - b) <= 0) ->
  (forall p, (p < 4)%nat -> sg * (Tp p - b) <= 0) ->
  forall i c, (i < hn_n g)%nat -> (c < 3)%nat -> sg * (y i c - b) <= 0.
Proof.
  intros G W F J Hh Hsg Sol Hyp HTp i0 c0 Hi0 Hc0. pose proof G as (Hn & _).
  destruct (grid_extreme y sg (hn_n g) Hn) as (i & c & Hi & Hc & Ext).
  destruct (Rle_dec (sg * (y i c - b)) 0) as [L|L].
  - specialize (Ext i0 c0 Hi0 Hc0). lra.
  - exfalso. apply Rnot_le_lt in L.
    pose proof (tot_sign g (flat_lam (hn_n g) junk (hexn_lam (ext_of (hn_n g) B y))) io f
      (ext_of (hn_n g) B y) Tp G W F) as T.
    specialize (T ltac:(intros p _; now apply (lamT_pos g junk _ Tp)) sg i c Hsg Hi Hc).
    rewrite ext_in in T by assumption.
    assert (T1 : sg * hexn_rate g junk io f B Tp y i c <= 0).
    { apply T.
      - intros i' c' Hi' Hc'. rewrite ext_in by assumption. now apply Ext.
      - intros p Hp. specialize (HTp p Hp). lra. }
    specialize (Sol i c Hi Hc). unfold imp_root in Sol. specialize (Hyp i c Hi Hc).
    assert (E : y i c = yp i c + h * hexn_rate g junk io f B Tp y i c) by lra.
    rewrite E in L.
    pose proof (mul_nonpos h (sg * hexn_rate g junk io f B Tp y i c) Hh T1). nra.
Qed.

(** ** Newton iteration *)
Lemma all_num_val m v a : all_num m v = Some a -> forall k, (k < m)%nat -> v k = Num (a k).
Proof.
  revert a. induction m as [|m IH]; intros a E k Hk; [lia|]. cbn [all_num] in E.
  destruct (all_num m v) as [b|]; [|discriminate]. destruct (v m) as [x|] eqn:Ev; [|discriminate].
  injection E as <-. destruct (Nat.eqb_spec k m) as [->|N]; [exact Ev|]. apply IH; [reflexivity|lia].
Qed.
Lemma newt_cell_first yp e f : forall x, newt_cell (yp + e) yp f 0 = Num x ->
  (f = 0 /\ x = yp + e) \/ (f <> 0 /\ (e <> 0 -> x = yp - e) /\ (e = 0 -> x = yp)).
Proof.
  intros x. unfold newt_cell. destruct (Req_EM_T f 0) as [Z|Z].
  - intros E. injection E as <-. left. split; [exact Z|reflexivity].
  - right. split; [exact Z|]. destruct (Req_EM_T (yp + e) yp) as [Y|Y].
    + injection H as <-. split; [intros N; lra|reflexivity].
    + injection H as <-. split; [|intros; lra]. intros N. field. split; [lra|]. intro Q. apply Z. nra.
Qed.
Lemma newt_cell_same y f fl x : newt_cell y y f fl = Num x -> x = y.
Proof.
  unfold newt_cell. destruct (Req_EM_T f 0); [intros E; now injection E|].
  destruct (Req_EM_T y y); [|contradiction]. destruct (Req_EM_T f fl); [discriminate|].
  intros E; now injection E.
Qed.
Lemma newt_stop m rtol y' y : 0 <= rtol -> (forall k, (k < m)%nat -> y' k = y k) -> newt_go m rtol y' y = false.
Proof.
  intros Hr H. unfold newt_go. apply not_true_iff_false. intro E. apply existsb_exists in E.
  destruct E as (k & Hk & E). apply in_seq in Hk. rewrite H in E by lia.
  destruct (Req_EM_T (y k) 0).
  - destruct (Rlt_dec 0 (y k - y k)) as [L|L]; [lra|discriminate].
  - destruct (Rlt_dec rtol ((y k - y k) / y k)) as [L|L]; [|discriminate].
    replace ((y k - y k) / y k) with 0 in L by (field; assumption). lra.
Qed.
Definition newt_first (m : nat) (d : vgrid -> vgrid) (h : R) (yp : vgrid) : option vgrid :=
  all_num m (newt_pass m d h yp (fun k => yp k + h * d yp k) yp (fun _ => 0)).
Lemma newt_result fuel m d h rtol yp y : 0 <= rtol -> imp_newt fuel m d h rtol yp = NDone y ->
  exists z, newt_first m d h yp = Some z /\ forall k, (k < m)%nat -> y k = z k.
Proof.
  intros Hr E. unfold imp_newt in E. destruct fuel as [|fuel]; [discriminate|]. cbn [newt_loop] in E.
  fold (newt_first m d h yp) in E.
  destruct (newt_first m d h yp) as [z|] eqn:Z; [|discriminate]. exists z. split; [reflexivity|].
  destruct (newt_go m rtol z yp); [|injection E as <-; reflexivity].
  destruct fuel as [|fuel]; [discriminate|]. cbn [newt_loop] in E.
  match type of E with match all_num m ?p with _ => _ end = _ => destruct (all_num m p) as [w|] eqn:Wv; [|discriminate] end.
  assert (S : forall k, (k < m)%nat -> w k = z k).
  { intros k Hk. pose proof (all_num_val m _ w Wv k Hk) as V. unfold newt_pass in V.
    now apply newt_cell_same in V. }
  rewrite (newt_stop m rtol w z Hr S) in E. injection E as <-. exact S.
Qed.
Lemma newt_fuel fuel m d h rtol yp : 0 <= rtol -> imp_newt (S (S fuel)) m d h rtol yp <> NFuel.
Proof.
  intros Hr E. unfold imp_newt in E. cbn [newt_loop] in E.
  fold (newt_first m d h yp) in E.
  destruct (newt_first m d h yp) as [z|] eqn:Z; [|discriminate].
  destruct (newt_go m rtol z yp); [|discriminate].
  match type of E with match all_num m ?p with _ => _ end = _ => destruct (all_num m p) as [w|] eqn:Wv; [|discriminate] end.
  assert (S : forall k, (k < m)%nat -> w k = z k).
  { intros k Hk. pose proof (all_num_val m _ w Wv k Hk) as V. unfold newt_pass in V.
    now apply newt_cell_same in V. }
  rewrite (newt_stop m rtol w z Hr S) in E. discriminate.
Qed.
Lemma newt_first_val m d h yp z : newt_first m d h yp = Some z -> forall k, (k < m)%nat ->
  let y0 := fun j => yp j + h * d yp j in
  (y0 k - yp k - h * d y0 k = 0 -> z k = y0 k) /\
  (y0 k - yp k - h * d y0 k <> 0 -> h * d yp k <> 0 -> z k = yp k - h * d yp k).
Proof.
  intros E k Hk y0. pose proof (all_num_val m _ z E k Hk) as V. unfold newt_pass in V.
  fold y0 in V. apply newt_cell_first in V. destruct V as [[A B]|(A & B & _)].
  - split; [intros _; exact B|intros N; contradiction].
  - split; [intros N; contradiction|intros _; exact B].
Qed.
