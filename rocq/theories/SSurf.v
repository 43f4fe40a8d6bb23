(** Repeated evaluation of a part (C190): vocabulary. *)
From Coq Require Import Reals.
From Verif Require Import MFlow MDiff SInsul.
Open Scope R_scope.

(** Persistent arrays [alpha_inf] and [UA_amb_shell] (pipe.py 120 and 138, tes.py 210 and 229) after [n] evaluations [ev] of the
    differential at the same temperatures and flows. *)
Fixpoint evals (ev : buf -> res) (b : buf) (n : nat) : buf :=
  match n with
  | O => b
  | S k => buf_after (ev (evals ev b k))
  end.
(** The loss of cell [j] settles: from all arrays in [ok] the evaluations tend to one conductance, which is also the only one that
    an evaluation returns unchanged.  Each evaluation takes at least a sixth off the logarithmic error; two consecutive results
    enclose the limit. *)
Definition loss_settles (ok : buf -> Prop) (ev : buf -> res) (j : nat) : Prop :=
  exists alim ulim, 0 < alim /\ 0 < ulim /\
  (exists bs, ok bs /\ settled (ev bs) bs j /\ b_ua bs j = ulim /\ b_ainf bs j = alim) /\ forall b, ok b ->
    Un_cv (fun n => b_ua (evals ev b n) j) ulim /\
    (forall n, 0 < b_ua (evals ev b (S n)) j /\
      Rabs (ln (b_ua (evals ev b (S n)) j / ulim)) <= (5 / 6) ^ n * Rabs (ln (b_ainf (evals ev b 1%nat) j / alim)) /\
      (b_ua (evals ev b (S n)) j - ulim) * (b_ua (evals ev b (S (S n))) j - ulim) <= 0) /\
    (settled (ev b) b j -> b_ua b j = ulim /\ b_ainf b j = alim).
(** The same without the enclosure. *)
Definition loss_tends (ok : buf -> Prop) (ev : buf -> res) (j : nat) : Prop :=
  exists alim ulim, 0 < alim /\ 0 < ulim /\
  (exists bs, ok bs /\ settled (ev bs) bs j /\ b_ua bs j = ulim /\ b_ainf bs j = alim) /\ forall b, ok b ->
    Un_cv (fun n => b_ua (evals ev b n) j) ulim /\
    (forall n, 0 < b_ua (evals ev b (S n)) j /\
      Rabs (ln (b_ua (evals ev b (S n)) j / ulim)) <= (5 / 6) ^ n * Rabs (ln (b_ainf (evals ev b 1%nat) j / alim))) /\
    (settled (ev b) b j -> b_ua b j = ulim /\ b_ainf b j = alim).
