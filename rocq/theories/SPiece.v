(** A pipe described in two pieces that are connected (C187): vocabulary. *)
From Coq Require Import Reals List Arith ZArith.
From Verif Require Import MFlow MWater MDiff MGeom SMirror.
From Verif Require MPortCond.
Open Scope R_scope.

(** A piece of [k] cells of a pipe: the same tube, its share of the length. *)
Definition piece (a : pipe_arg) (k : nat) : pipe_arg :=
  {| pa_len := pa_len a * (INR k / IZR (pa_gp a)); pa_gp := Z.of_nat k; pa_sins := pa_sins a; pa_lins := pa_lins a;
     pa_di := pa_di a; pa_do := pa_do a; pa_A := pa_A a; pa_cp := pa_cp a; pa_rho := pa_rho a; pa_lam := pa_lam a |}.
(** What a pipe shows at its ports to the parts it is connected with. *)
Definition end_spec (a : pipe_arg) : MPortCond.pspec :=
  {| MPortCond.aw := PI / 4 * (pa_do a ^ 2 - pa_di a ^ 2); MPortCond.af := pa_A a;
     MPortCond.gsp := pa_len a / IZR (pa_gp a); MPortCond.lam := pa_lam a |}.
(** Ports of a pipe [a] after it was connected to the pipe [c] (simenv.py 1795-1860, 2563-2620). *)
Definition joined (a c : pipe_arg) : MPortCond.pstate :=
  {| MPortCond.own := fun _ => end_spec a; MPortCond.conn := fun _ => end_spec c |}.
Definition two (u v : R) : arr := fun i => match i with O => u | _ => v end.
Definition two_own (n : nat) : nat -> nat := fun i => match i with O => O | _ => (n - 1)%nat end.
(** Whole pipe with ports [p]; the pieces keep the outer ports and are connected at the inner ones. *)
Definition ports_of (n : nat) (p : prts) : prts :=
  {| p_np := 2; p_own := two_own n; p_gsp := p_gsp p; p_sub := p_sub p; p_A := p_A p; p_w := p_w p |}.
Definition front_ports (a c : pipe_arg) (k : nat) (p : prts) : prts :=
  {| p_np := 2; p_own := two_own k;
     p_gsp := two (p_gsp p 0%nat) (MPortCond.gsp (end_spec c));
     p_sub := two (p_sub p 0%nat) ((MPortCond.gsp (end_spec a) + MPortCond.gsp (end_spec c)) / 2);
     p_A := two (p_A p 0%nat) ((MPortCond.af (end_spec a) + MPortCond.af (end_spec c)) / 2);
     p_w := two (p_w p 0%nat) (MPortCond.UA_wall (joined a c) 1) |}.
Definition back_ports (a c : pipe_arg) (m : nat) (p : prts) : prts :=
  {| p_np := 2; p_own := two_own m;
     p_gsp := two (MPortCond.gsp (end_spec a)) (p_gsp p 1%nat);
     p_sub := two ((MPortCond.gsp (end_spec a) + MPortCond.gsp (end_spec c)) / 2) (p_sub p 1%nat);
     p_A := two ((MPortCond.af (end_spec a) + MPortCond.af (end_spec c)) / 2) (p_A p 1%nat);
     p_w := two (MPortCond.UA_wall (joined c a) 0) (p_w p 1%nat) |}.

(** The whole pipe and both pieces, as set up by the constructor. *)
Definition cut (a : pipe_arg) (k m : nat) (p : prts) (g g1 g2 : geo) : Prop :=
  (1 <= k)%nat /\ (1 <= m)%nat /\ pa_gp a = Z.of_nat (k + m) /\
  pipe_new a (ports_of (k + m) p) = Some g /\
  pipe_new (piece a k) (front_ports (piece a k) (piece a m) k p) = Some g1 /\
  pipe_new (piece a m) (back_ports (piece a k) (piece a m) m p) = Some g2.

(** The pieces hold the temperatures (entries 1 to n) and arrays of the whole pipe; the inner ports show
    the neighbouring cells. *)
Definition front_T (k : nat) (T T1 : arr) : Prop := forall j, (j < k)%nat -> T1 (S j) = T (S j).
Definition back_T (k m : nat) (T T2 : arr) : Prop := forall j, (j < m)%nat -> T2 (S j) = T (S (k + j)).
Definition front_P (k : nat) (T Tp : arr) : arr := two (Tp 0%nat) (T (S k)).
Definition back_P (k : nat) (T Tp : arr) : arr := two (T k) (Tp 1%nat).
Definition same_at (n o : nat) (b b' : buf) : Prop :=
  forall j, (j < n)%nat -> b_ainf b' j = b_ainf b (o + j)%nat /\ b_ua b' j = b_ua b (o + j)%nat.

(** A pipe at rest and its pieces over a sequence of evaluations and steps. *)
Record moment := { o_h : R; o_Tp : arr; o_amb : R; o_lo : R; o_hi : R }.
Definition rest_event (o : moment) : event :=
  {| e_h := o_h o; e_io := 0; e_Tp := o_Tp o; e_amb := o_amb o; e_lo := o_lo o; e_hi := o_hi o |}.
(** Both pieces make the step with what their inner ports show at its beginning. *)
Definition pieces_event (k : nat) (g1 g2 : geo) (st : pstate * pstate) (o : moment) : pstate * pstate :=
  let T1 := p_T (fst st) in let T2 := p_T (snd st) in
  (pipe_event g1 (fst st) {| e_h := o_h o; e_io := 0; e_Tp := two (o_Tp o 0%nat) (T2 1%nat);
     e_amb := o_amb o; e_lo := 0; e_hi := 0 |},
   pipe_event g2 (snd st) {| e_h := o_h o; e_io := 0; e_Tp := two (T1 k) (o_Tp o 1%nat);
     e_amb := o_amb o; e_lo := 0; e_hi := 0 |}).
(** Whenever the whole pipe is evaluated its temperatures are those of water. *)
Fixpoint liquid (g : geo) (os : list moment) (s : pstate) : Prop :=
  match os with
  | nil => True
  | cons o os' => (forall j, (j < g_n g)%nat -> 0 <= p_T s (S j) <= 100) /\ liquid g os' (pipe_event g s (rest_event o))
  end.
(** The pieces [st] together are the whole pipe [s]. *)
Definition together (k m : nat) (s : pstate) (st : pstate * pstate) : Prop :=
  front_T k (p_T s) (p_T (fst st)) /\ back_T k m (p_T s) (p_T (snd st)) /\
  same_at k 0 (p_b s) (p_b (fst st)) /\ same_at m k (p_b s) (p_b (snd st)).
