(** C184: a pipe works the same in both directions. *)
From Coq Require Import Reals List Arith Bool Lra Lia.
From Verif Require Import MFlow MWater MDiff SFlow LFlow LDiff LDiff2 SMirror LMirror.
Import ListNotations.
Local Open Scope R_scope.

Section Pipe.
Variables (g : geo) (io : R) (f f' : flows) (Tx Tx' Tp Tp' : arr) (Tamb : R) (b b' : buf).
Let r := pipe_diff g io f Tx Tp Tamb b.
Let r' := pipe_diff (mirror_geo g) (- io) f' Tx' Tp' Tamb b'.
Hypothesis Hn : (1 <= g_n g)%nat.
Hypothesis Hnp : g_np g = 2%nat.
Hypothesis Hin : ports_in g.
Hypothesis E : ends0 (g_n g) f.
Hypothesis E' : ends0 (g_n g) f'.
Hypothesis HT : same_cells (g_n g + 2) Tx' (mirror_ext g Tx).
Hypothesis HP : same_cells (g_np g) Tp' (rev_arr (g_np g) Tp).
Hypothesis HB1 : same_cells (g_n g) (b_ainf b') (rev_arr (g_n g) (b_ainf b)).
Hypothesis HB2 : same_cells (g_n g) (b_ua b') (rev_arr (g_n g) (b_ua b)).
Lemma ext_T k : (k < g_n g + 2)%nat -> Tx' k = Tx (g_n g + 1 - k)%nat.
Proof. intro H. rewrite (HT k H). unfold mirror_ext, rev_arr. f_equal. lia. Qed.
Lemma pipe_mirror j : (j < g_n g)%nat ->
  r_tot r' j = r_tot r (g_n g - 1 - j)%nat /\ r_cond r' j = r_cond r (g_n g - 1 - j)%nat /\
  r_adv r' j = r_adv r (g_n g - 1 - j)%nat /\
  r_ua r' j = r_ua r (g_n g - 1 - j)%nat /\ r_ainf r' j = r_ainf r (g_n g - 1 - j)%nat.
Proof.
  intro H. destruct E as [E1 E2]. destruct E' as [E3 E4].
  assert (C : r_cond r' j = r_cond r (g_n g - 1 - j)%nat).
  { apply mir_cond; auto using ext_T. intros i Hi. apply mir_alpha; [exact ext_T|exact Hi]. }
  assert (A : r_adv r' j = r_adv r (g_n g - 1 - j)%nat).
  { apply mir_adv; auto using ext_T.
    - intros i Hi. apply (mir_invar (g_n g) (g_np g) io f f' i); assumption.
    - intros i Hi. apply (mir_invar (g_n g) (g_np g) io f f' i); assumption.
    - intros i Hi. apply mir_port; assumption. }
  split; [|split; [exact C|split; [exact A|split]]].
  - unfold r, r', pipe_diff. rewrite !tot_val. fold (pipe_diff g io f Tx Tp Tamb b).
    fold (pipe_diff (mirror_geo g) (- io) f' Tx' Tp' Tamb b'). unfold r, r' in C, A.
    unfold pipe_diff in *. rewrite C, A. reflexivity.
  - apply mir_ua; auto using ext_T. intros i Hi. apply mir_alpha; [exact ext_T|exact Hi].
  - apply mir_ainf; auto using ext_T.
Qed.
End Pipe.

(** Described from the other end with the flow counted the other way, every cell of a pipe gets
    the same differential: conduction, advection and heat loss, for any flow and temperatures. *)
Theorem C184_pipe : forall g io f f' Tx Tp Tamb b j,
  (1 <= g_n g)%nat -> g_np g = 2%nat -> ports_in g -> ends0 (g_n g) f -> ends0 (g_n g) f' -> (j < g_n g)%nat ->
  let r := pipe_diff g io f Tx Tp Tamb b in
  let r' := pipe_diff (mirror_geo g) (- io) f' (mirror_ext g Tx) (rev_arr (g_np g) Tp) Tamb (mirror_buf g b) in
  r_tot r' j = r_tot r (g_n g - 1 - j)%nat /\ r_cond r' j = r_cond r (g_n g - 1 - j)%nat /\
  r_adv r' j = r_adv r (g_n g - 1 - j)%nat /\ r_ua r' j = r_ua r (g_n g - 1 - j)%nat.
Proof.
  intros g io f f' Tx Tp Tamb b j Hn Hp Hi E E' H. cbv zeta.
  destruct (pipe_mirror g io f f' Tx (mirror_ext g Tx) Tp (rev_arr (g_np g) Tp) Tamb b (mirror_buf g b))
    with (j := j) as (A & B & C & D & _); auto; try (intros ? ?; reflexivity).
Qed.
Print Assumptions C184_pipe.

(** Over any sequence of evaluations and steps, with flow, port and ambient temperatures changing
    in any way: a pipe started from mirrored temperatures and met by mirrored events stays the
    mirror image. *)
Theorem C184_run : forall g es s t,
  (1 <= g_n g)%nat -> g_np g = 2%nat -> ports_in g -> ends0 (g_n g) (p_f s) -> ends0 (g_n g) (p_f t) ->
  mirrored g s t -> mirrored g (pipe_run g es s) (pipe_run (mirror_geo g) (map (mirror_event g) es) t).
Proof.
  intros g es. unfold pipe_run. induction es as [|e es IH]; intros s t Hn Hp Hi E E' M; [exact M|].
  cbn [map fold_left]. destruct M as (M1 & M2 & M3).
  pose proof (pipe_mirror g (e_io e) (p_f s) (p_f t) (p_T s) (p_T t) (e_Tp e) (rev_arr (g_np g) (e_Tp e)) (e_amb e)
    (p_b s) (p_b t) Hn Hp Hi E E' M1 (fun _ _ => eq_refl) M2 M3) as Q.
  apply IH; auto.
  - apply invar_ends; assumption.
  - apply (invar_ends (g_n g)); assumption.
  - split; [|split].
    + intros k Hk.
      change (euler_cells (mirror_geo g) (e_h e) (pipe_diff (mirror_geo g) (- e_io e) (p_f t) (p_T t)
          (rev_arr (g_np g) (e_Tp e)) (e_amb e) (p_b t)) (p_T t) (e_hi e) (e_lo e) k
        = euler_cells g (e_h e) (pipe_diff g (e_io e) (p_f s) (p_T s) (e_Tp e) (e_amb e) (p_b s))
          (p_T s) (e_lo e) (e_hi e) (g_n g + 2 - 1 - k)%nat).
      unfold euler_cells. change (g_n (mirror_geo g)) with (g_n g).
      destruct (Nat.eqb_spec k 0), (Nat.eqb_spec k (g_n g + 1)), (Nat.eqb_spec (g_n g + 2 - 1 - k) 0),
        (Nat.eqb_spec (g_n g + 2 - 1 - k) (g_n g + 1)); try lia; try reflexivity.
      destruct (Q (k - 1)%nat ltac:(lia)) as (QT & _). rewrite QT, (M1 k Hk).
      change (mirror_ext g (p_T s) k) with (p_T s (g_n g + 2 - 1 - k)%nat).
      replace (g_n g + 2 - 1 - k - 1)%nat with (g_n g - 1 - (k - 1))%nat by lia. reflexivity.
    + intros j Hj. apply (Q j Hj).
    + intros j Hj. apply (Q j Hj).
Qed.
Print Assumptions C184_run.

(** Heated pipes, with the heated cells counted from the other end. *)
Lemma existsb_rev m (p : nat -> bool) : existsb p (seq 0 m) = existsb (fun k => p (m - 1 - k)%nat) (seq 0 m).
Proof.
  apply eq_true_iff_eq. rewrite !existsb_exists. split; intros (k & I & P); apply in_seq in I;
    exists (m - 1 - k)%nat; (split; [apply in_seq; lia|]).
  - replace (m - 1 - (m - 1 - k))%nat with k by lia. exact P.
  - exact P.
Qed.
Theorem C184_heated : forall g lo hi dQ io f f' Tx Tp Tamb b j,
  (1 <= g_n g)%nat -> g_np g = 2%nat -> ports_in g -> ends0 (g_n g) f -> ends0 (g_n g) f' -> (j < g_n g)%nat ->
  (lo < hi <= g_n g)%nat ->
  r_tot (heated_diff (mirror_geo g) (g_n g - hi) (g_n g - lo) dQ (- io) f' (mirror_ext g Tx) (rev_arr (g_np g) Tp)
    Tamb (mirror_buf g b)) j
  = r_tot (heated_diff g lo hi dQ io f Tx Tp Tamb b) (g_n g - 1 - j)%nat.
Proof.
  intros g lo hi dQ io f f' Tx Tp Tamb b j Hn Hp Hi E E' Hj HL.
  destruct (pipe_mirror g io f f' Tx (mirror_ext g Tx) Tp (rev_arr (g_np g) Tp) Tamb b (mirror_buf g b))
    with (j := j) as (_ & C & A & _); auto; try (intros ? ?; reflexivity).
  unfold heated_diff. rewrite !tot_val.
  assert (H1 : heat_power (g_n (mirror_geo g)) (mirror_ext g Tx) dQ = heat_power (g_n g) Tx dQ).
  { unfold heat_power. cbn [mirror_geo g_n]. unfold mirror_ext, rev_arr.
    rewrite (existsb_rev (g_n g + 2) (fun k => if Rle_dec 110 (Tx k) then true else false)). reflexivity. }
  rewrite H1. f_equal; [f_equal; [exact C|exact A]|].
  cbn [part_diff r_heat]. unfold heated. cbn [mirror_geo g_V g_mw].
  replace (mirror_ext g Tx (S j)) with (Tx (S (g_n g - 1 - j))) by (unfold mirror_ext, rev_arr; f_equal; lia).
  replace (g_n g - lo - (g_n g - hi))%nat with (hi - lo)%nat by lia.
  destruct (Nat.leb_spec (g_n g - hi) j), (Nat.ltb_spec j (g_n g - lo)), (Nat.leb_spec lo (g_n g - 1 - j)),
    (Nat.ltb_spec (g_n g - 1 - j) hi); cbn [andb]; try lia; reflexivity.
Qed.
Print Assumptions C184_heated.

(** ** Branched pipes *)
Lemma above_mirror n np own io j : (forall i, (i < np)%nat -> (own i < n)%nat) -> rsum np io = 0 -> (S j < n)%nat ->
  above np (fun i => (n - 1 - own (np - 1 - i))%nat) (rev_arr np io) j = - above np own io (n - 2 - j).
Proof.
  intros HO Z Hj. unfold above, rev_arr.
  assert (Q : rsum np (fun i => if (n - 1 - own (np - 1 - i) <=? j)%nat then io (np - 1 - i)%nat else 0)
            + rsum np (fun i => if (own i <=? n - 2 - j)%nat then io i else 0) = 0).
  { rewrite (rsum_rev np (fun i => if (own i <=? n - 2 - j)%nat then io i else 0)), <- rsum_plus.
    transitivity (rsum np io); [|exact Z]. rewrite (rsum_rev np io). apply rsum_ext. intros i Hi. pose proof (HO (np - 1 - i)%nat ltac:(lia)).
    destruct (Nat.leb_spec (n - 1 - own (np - 1 - i)%nat) j), (Nat.leb_spec (own (np - 1 - i)%nat) (n - 2 - j)); try lia; lra. }
  lra.
Qed.
Lemma sorted_mirror n np own : sorted_ports n np own ->
  sorted_ports n np (fun i => (n - 1 - own (np - 1 - i))%nat).
Proof.
  intros [H1 H2]. split; intros i Hi.
  - pose proof (H1 (np - 1 - S i)%nat ltac:(lia)) as Q. replace (S (np - 1 - S i)) with (np - 1 - i)%nat in Q by lia. lia.
  - pose proof (H2 (np - 1 - i)%nat ltac:(lia)). lia.
Qed.
Lemma rev_sum np io : rsum np (rev_arr np io) = rsum np io.
Proof. rewrite (rsum_rev np io). reflexivity. Qed.

(** Flows with any number of ports: advection is that of the mirror image. *)
Theorem C184_branched_partial : forall g io f f' Tx Tp Tamb b j,
  (1 <= g_n g)%nat -> (1 <= g_np g)%nat -> sorted_ports (g_n g) (g_np g) (g_own g) -> rsum (g_np g) io = 0 ->
  ends0 (g_n g) f -> ends0 (g_n g) f' -> (j < g_n g)%nat ->
  r_adv (branched_diff (mirror_geo g) (mirror_io g io) f' (mirror_ext g Tx) (rev_arr (g_np g) Tp) Tamb (mirror_buf g b)) j
  = r_adv (branched_diff g io f Tx Tp Tamb b) (g_n g - 1 - j)%nat.
Proof.
  intros g io f f' Tx Tp Tamb b j Hn Hp S0 Z [E1 E2] [E3 E4] Hj.
  pose proof (sorted_mirror _ _ _ S0) as S1.
  pose proof (dm_val (g_n g) (g_np g) (g_own g) io Hp S0 Z) as D.
  pose proof (dm_val (g_n g) (g_np g) _ (rev_arr (g_np g) io) Hp S1 (eq_trans (rev_sum _ _) Z)) as D'.
  unfold branched_diff. apply mir_adv.
  - exact Hn.
  - exact (proj2 S0).
  - intros k Hk. unfold mirror_ext, rev_arr. f_equal. lia.
  - intros i Hi. reflexivity.
  - intros i Hi. unfold process_flow_var, mirror_io. cbn [fst f_top f_bot mirror_geo g_n g_np g_own].
    rewrite !clip0_max. f_equal.
    destruct (Nat.leb_spec 1 i), (Nat.ltb_spec i (g_n g)), (Nat.ltb_spec (g_n g - 1 - i) (g_n g - 1)); cbn [andb]; try lia.
    + rewrite D, D'. rewrite above_mirror by (exact (proj2 S0) || exact Z || lia). f_equal. f_equal. lia.
    + replace i with 0%nat by lia. rewrite Nat.sub_0_r, E2, E3. reflexivity.
  - intros i Hi. unfold process_flow_var, mirror_io. cbn [fst f_top f_bot mirror_geo g_n g_np g_own].
    rewrite !clip0_max. f_equal.
    destruct (Nat.ltb_spec i (g_n g - 1)), (Nat.leb_spec 1 (g_n g - 1 - i)), (Nat.ltb_spec (g_n g - 1 - i) (g_n g)); cbn [andb]; try lia.
    + rewrite D, D'. rewrite above_mirror by (exact (proj2 S0) || exact Z || lia). rewrite Ropp_involutive. f_equal. lia.
    + replace i with (g_n g - 1)%nat by lia. replace (g_n g - 1 - (g_n g - 1))%nat with 0%nat by lia.
      rewrite E1, E4. reflexivity.
  - intros i Hi. unfold process_flow_var, mirror_io. cbn [fst f_port]. rewrite !clip0_max. reflexivity.
  - exact Hj.
Qed.
Print Assumptions C184_branched_partial.

(** ** Cases *)
(** A copper pipe with insulation, four cells of 10 cm. *)
Definition mg (np : nat) (own : nat -> nat) : geo := {|
  g_n := 4; g_np := np; g_own := own; g_A := 1/1000; g_V := 1/10000; g_gsp := 1/10; g_di := 36/1000;
  g_x := fun j => 1/20 + INR j / 10; g_L := 6/100; g_rt := 3/100; g_rlw := 1/1000; g_rli := 1/100; g_rr := 1/2;
  g_Ai := 1/100; g_As := 2/100; g_vert := false; g_lw := 380; g_li := 4/100; g_mw := 100; g_tbw := 2;
  g_pgsp := fun _ => 1/10; g_psub := fun _ => 1/10; g_pA := fun _ => 1/1000; g_pw := fun _ => 0;
  g_swll := 0; g_sins := 0; g_Llid := 1; g_vlid := false |}.
Definition own2 (i : nat) : nat := match i with O => 0 | _ => 3 end.
Definition own3 (i : nat) : nat := match i with O => 0 | 1%nat => 1 | _ => 3 end.
Lemma mg_ok np own : (forall i, (own i < 4)%nat) -> geo_ok (mg np own).
Proof. intro H. constructor; cbn; try lia; try lra; try (intros; lra). intros i _. apply H. Qed.
Lemma own2_in i : (own2 i < 4)%nat. Proof. destruct i; cbn; lia. Qed.
Lemma own3_in i : (own3 i < 4)%nat. Proof. destruct i as [|[|i]]; cbn; lia. Qed.

(** Hot water in the first two cells, cold in the others, flowing backwards. *)
Example C184_ex_pipe : forall j, (j < 4)%nat ->
  let g := mg 2 own2 in
  let Tx := fun k => if (k <=? 2)%nat then 80 else 20 in
  r_tot (pipe_diff (mirror_geo g) (1/10) flows0 (mirror_ext g Tx) (rev_arr 2 (fun i => 30 + INR i)) 10 (mirror_buf g buf0)) j
  = r_tot (pipe_diff g (- (1/10)) flows0 Tx (fun i => 30 + INR i) 10 buf0) (3 - j)%nat.
Proof.
  intros j Hj. cbv zeta.
  destruct (C184_pipe (mg 2 own2) (- (1/10)) flows0 flows0 (fun k => if (k <=? 2)%nat then 80 else 20) (fun i => 30 + INR i)
    10 buf0 j) as [Q _]; try (cbn; lia); try (split; reflexivity); [intros i _; apply own2_in|].
  rewrite Ropp_involutive in Q. exact Q.
Qed.
