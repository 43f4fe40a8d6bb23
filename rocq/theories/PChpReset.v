(** C124 for a network with a CHP plant: it can be simulated only once. *)
From Coq Require Import List Arith Bool Lia.
From Verif Require Import MChpReset.
Import ListNotations.

Lemma works_iff : forall sh, if_works sh = true <-> size sh <= 1.
Proof. intros sh. unfold if_works. apply Nat.leb_le. Qed.

Lemma later_fail : forall l sh, 2 <= size sh -> simulations sh l = repeat false (length l).
Proof.
  induction l as [|[n k] r IH]; intros sh H; [reflexivity|].
  cbn [simulations length repeat]. unfold simulate, special_array_init, last_row. cbn [fst snd tl].
  replace (if_works sh) with false.
  2:{ symmetry. apply not_true_is_false. rewrite works_iff. lia. }
  f_equal. apply IH. cbn [size fold_right]. fold (size sh). nia.
Qed.

(** The first simulation works; if it did two steps or more then every later simulation of the same
    environment, with a reset or without, stops with a ValueError in its first step. *)
Theorem C124_chp_refuted : forall n k l, 1 <= n -> 2 <= k ->
  simulations state_new ((n, k) :: l) = true :: repeat false (length l).
Proof.
  intros n k l Hn Hk. cbn [simulations]. unfold simulate, special_array_init, last_row, state_new.
  cbn [fst snd tl]. unfold if_works. cbn [size fold_right Nat.mul Nat.add Nat.leb]. f_equal.
  apply later_fail. cbn [special_crop size fold_right]. destruct (Nat.min_spec k (n + 1)); lia.
Qed.
Print Assumptions C124_chp_refuted.

(** Only simulations that did one step can be followed by another one. *)
Theorem C124_chp_iff : forall n k n' k', 1 <= n -> 1 <= k ->
  (nth 1 (simulations state_new [(n, k); (n', k')]) false = true <-> k = 1).
Proof.
  intros n k n' k' Hn Hk. split; intros H.
  - destruct (Nat.eq_dec k 1); [assumption|]. rewrite C124_chp_refuted in H by lia.
    cbn in H. discriminate.
  - subst k. cbn [simulations]. unfold simulate, special_array_init, last_row, state_new.
    cbn [fst snd tl]. unfold if_works. cbn [size fold_right Nat.mul Nat.add Nat.leb special_crop].
    replace (Nat.min 1 (n + 1)) with 1 by lia. reflexivity.
Qed.
Print Assumptions C124_chp_iff.

(** One day in minutes, then three more attempts. *)
Example chp_four_days :
  simulations state_new [(1440, 1440); (1440, 1440); (60, 60); (1, 1)]
  = [true; false; false; false].
Proof. rewrite C124_chp_refuted by (apply Nat.leb_le; reflexivity). reflexivity. Qed.
