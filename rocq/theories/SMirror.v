(** A pipe described from its other end.

    Cells, ports and everything that belongs to them are counted from the other end, the flow is
    counted in the other direction. *)
From Coq Require Import Reals List Arith.
From Verif Require Import MFlow MWater MDiff.
Open Scope R_scope.

(** Entries [0 .. n-1] in reverse order. *)
Definition rev_arr (n : nat) (a : arr) : arr := fun j => a (n - 1 - j)%nat.
Definition mirror_geo (g : geo) : geo := {|
  g_n := g_n g; g_np := g_np g;
  g_own := fun i => (g_n g - 1 - g_own g (g_np g - 1 - i))%nat;
  g_A := g_A g; g_V := g_V g; g_gsp := g_gsp g; g_di := g_di g; g_x := g_x g; g_L := g_L g;
  g_rt := g_rt g; g_rlw := g_rlw g; g_rli := g_rli g; g_rr := g_rr g; g_Ai := g_Ai g; g_As := g_As g;
  g_vert := g_vert g; g_lw := g_lw g; g_li := g_li g; g_mw := g_mw g; g_tbw := g_tbw g;
  g_pgsp := rev_arr (g_np g) (g_pgsp g); g_psub := rev_arr (g_np g) (g_psub g);
  g_pA := rev_arr (g_np g) (g_pA g); g_pw := rev_arr (g_np g) (g_pw g);
  g_swll := g_swll g; g_sins := g_sins g; g_Llid := g_Llid g; g_vlid := g_vlid g |}.
(** Temperatures with the two outer entries. *)
Definition mirror_ext (g : geo) (Tx : arr) : arr := rev_arr (g_n g + 2) Tx.
Definition mirror_buf (g : geo) (b : buf) : buf :=
  {| b_ainf := rev_arr (g_n g) (b_ainf b); b_ua := rev_arr (g_n g) (b_ua b) |}.
(** Port flows are counted into the part at every port. *)
Definition mirror_io (g : geo) (io : arr) : arr := rev_arr (g_np g) io.

(** Same temperatures and persistent arrays of all cells. *)
Definition same_cells (n : nat) (a b : arr) : Prop := forall j, (j < n)%nat -> a j = b j.

(** One Euler step of the cells of a pipe; the outer entries are set by the caller
    (simenv.py 3974-3988). *)
Definition euler_cells (g : geo) (h : R) (r : res) (Tx : arr) (lo hi : R) : arr := fun k =>
  if (k =? 0)%nat then lo else if (k =? g_n g + 1)%nat then hi else Tx k + h * r_tot r (k - 1)%nat.
(** What a pipe meets in one evaluation: step size, flow, port temperatures, ambient
    temperature and the outer entries. *)
Record event := { e_h : R; e_io : R; e_Tp : arr; e_amb : R; e_lo : R; e_hi : R }.
Definition mirror_event (g : geo) (e : event) : event :=
  {| e_h := e_h e; e_io := - e_io e; e_Tp := rev_arr (g_np g) (e_Tp e); e_amb := e_amb e;
     e_lo := e_hi e; e_hi := e_lo e |}.
Record pstate := { p_T : arr; p_b : buf; p_f : flows }.
(** Temperatures, persistent arrays and flow arrays after evaluation and step. *)
Definition pipe_event (g : geo) (s : pstate) (e : event) : pstate :=
  let r := pipe_diff g (e_io e) (p_f s) (p_T s) (e_Tp e) (e_amb e) (p_b s) in
  {| p_T := euler_cells g (e_h e) r (p_T s) (e_lo e) (e_hi e); p_b := buf_after r;
     p_f := process_flow_invar (g_n g) (g_np g) (e_io e) (p_f s) |}.
Definition pipe_run (g : geo) (es : list event) (s : pstate) : pstate := fold_left (pipe_event g) es s.
(** [t] is the state [s] seen from the other end. *)
Definition mirrored (g : geo) (s t : pstate) : Prop :=
  same_cells (g_n g + 2) (p_T t) (mirror_ext g (p_T s)) /\
  same_cells (g_n g) (b_ainf (p_b t)) (rev_arr (g_n g) (b_ainf (p_b s))) /\
  same_cells (g_n g) (b_ua (p_b t)) (rev_arr (g_n g) (b_ua (p_b s))).
