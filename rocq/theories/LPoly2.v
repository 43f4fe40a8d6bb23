(** Sums, products and reflections of polynomials, see LPoly. *)
From Coq Require Import Reals QArith Qreals List Lra Lia Bool.
From Verif Require Import LPoly.
Import ListNotations.
Local Open Scope R_scope.

Fixpoint qadd (a b : list Q) : list Q :=
  match a, b with
  | [], _ => b
  | _, [] => a
  | x :: r, y :: s => Qred (x + y) :: qadd r s
  end.
Definition qscale (c : Q) (a : list Q) : list Q := map (fun x => Qred (c * x)) a.
Fixpoint qmul (a b : list Q) : list Q :=
  match a with [] => [] | x :: r => qadd (qscale x b) (0%Q :: qmul r b) end.
(** [a] at [- x] *)
Fixpoint qflip (a : list Q) : list Q := match a with [] => [] | x :: r => x :: qneg (qflip r) end.

Lemma Q2R_0 : Q2R 0 = 0.
Proof. unfold Q2R; cbn; lra. Qed.
Lemma qadd_eval a x : forall b, qeval (qadd a b) x = qeval a x + qeval b x.
Proof.
  unfold qeval. induction a as [|c r IH]; intros [|d s]; cbn [qadd map peval]; try lra.
  rewrite IH, Qred_R, Q2R_plus. ring.
Qed.
Lemma qscale_eval c a x : qeval (qscale c a) x = Q2R c * qeval a x.
Proof.
  unfold qeval, qscale. induction a as [|d r IH]; cbn [map peval]; [ring|].
  rewrite IH, Qred_R, Q2R_mult. ring.
Qed.
Lemma qmul_eval a b x : qeval (qmul a b) x = qeval a x * qeval b x.
Proof.
  induction a as [|c r IH]; [unfold qeval; cbn; ring|]. cbn [qmul]. rewrite qadd_eval, qscale_eval.
  unfold qeval at 2 3. cbn [map peval]. fold (qeval (qmul r b) x). fold (qeval r x). rewrite IH, Q2R_0. ring.
Qed.
Lemma qflip_eval a x : qeval (qflip a) x = qeval a (- x).
Proof.
  induction a as [|c r IH]; [reflexivity|]. cbn [qflip].
  change (Q2R c + x * qeval (qneg (qflip r)) x = Q2R c + - x * qeval r (- x)).
  rewrite qneg_eval, IH. ring.
Qed.
