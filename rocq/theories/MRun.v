(** Model of the simulation main loop and of the result arrays.
    Source: multisim/simenv.py, [start_sim] lines 5032-5128, [_free_memory] lines 5278-5422,
    [_finalize_sim] lines 4876-4952, [_crop_results] lines 5668-5687, array allocation in
    [_initialize_arrays] lines 4645-4718.

    Simplifications.  All arrays that the code handles line by line in the same way (time
    vector, [res], [res_dm], error and state vectors) are bundled into one array whose rows
    are pairs (time stamp, rest).  What one pass through mass flows, solver, control and
    boundary conditions computes is an arbitrary sequence of (step size, row): theorems
    quantify over all of them.  The NaN check every 5000 steps (5104-5128), progress printing
    and the HDF container (an append-only list here) are not modelled. *)
From Coq Require Import Reals List Arith.
Import ListNotations.
Open Scope R_scope.

Section Run.
Context {Row : Type}.
Variable zero : Row. (* a row of zeros *)

(** numpy [a[i]] and [a[i] = v] on the first axis; [None] is [IndexError]. *)
Definition getn {A} (l : list A) (i : nat) : option A := nth_error l i.
Fixpoint setn {A} (l : list A) (i : nat) (v : A) : option (list A) :=
  match l, i with
  | [], _ => None
  | _ :: r, O => Some (v :: r)
  | x :: r, S j => match setn r j v with Some r' => Some (x :: r') | None => None end
  end.

(** Where results go: flushed to disk, or kept in memory and enlarged by [base] rows
    ([__base_num_steps], 4650). *)
Inductive mode := Disk | Mem (base : nat).

Record rst := {
  r_t : R;                       (* [time_sim] *)
  r_step : nat;                  (* [stepnum[0]] *)
  r_num : nat;                   (* [num_steps] *)
  r_total : nat;                 (* [_total_stepnum] *)
  r_buf : list (R * Row);        (* [time_vec] and result arrays *)
  r_disk : list (R * Row)        (* [_total_time_vec] and the temporary store *)
}.

(** [_initialize_arrays] 4681-4719 and [start_sim] 5054-5058: [num_steps + 1] rows, row 0 is the
    initial state at time 0, [stepnum] 1. *)
Definition run_init (num : nat) (row0 : Row) : rst :=
  {| r_t := 0; r_step := 1; r_num := num; r_total := 0;
     r_buf := (0, row0) :: repeat (0, zero) num; r_disk := [] |}.

(** [_free_memory], 5287-5322 (in memory) and 5323-5422 (on disk).  [al] is the argument
    [array_length]; [None] is its default [-1], that is all rows but the last. *)
Definition free_memory (m : mode) (al : option nat) (s : rst) : option rst :=
  match m with
  | Mem base =>
      let buf := r_buf s ++ repeat (0, zero) base in
      Some {| r_t := r_t s; r_step := r_step s; r_num := length buf - 1;
              r_total := r_total s; r_buf := buf; r_disk := r_disk s |}
  | Disk =>
      let chunk := match al with
                   | None => removelast (r_buf s)
                   | Some k => firstn k (r_buf s)
                   end in
      match getn (r_buf s) (r_step s) with
      | None => None
      | Some last =>
          Some {| r_t := r_t s; r_step := 0; r_num := r_num s;
                  r_total := r_total s + r_step s;
                  r_buf := last :: repeat (0, zero) (length (r_buf s) - 1);
                  r_disk := r_disk s ++ chunk |}
      end
  end.

Inductive rres :=
| RDone (rows : list (R * Row))  (* what the user gets after the run *)
| RIndexError                    (* the run dies with an [IndexError] *)
| ROutOfBounds                   (* compiled code writes past the end of an array *)
| ROutOfFuel.                    (* model artefact: loop bound exhausted *)

(** [_finalize_sim] 4880-4940 and [_crop_results] 5673-5684. *)
Definition finalize (m : mode) (s : rst) : rres :=
  match (match m with
         | Disk => free_memory Disk (Some (r_step s)) s
         | Mem _ => Some s
         end) with
  | None => RIndexError
  | Some s' => RDone (firstn (r_step s' + r_total s') (r_disk s' ++ r_buf s'))
  end.

(** One pass of the loop body, 5060-5090.  [cap] is the number of rows of the result arrays
    that compiled part code holds on to: [_create_diff_inputs] 4741-4762 stores the arrays
    themselves once ([res_dm] of pipes, storages, heat exchangers, pumps), so that the
    solver's writes go to these arrays whatever [_free_memory] assigns later. [None]: the model
    has no such part. *)
Definition body (m : mode) (cap : option nat) (tf : R) (h : R) (row : Row) (s : rst)
  : rst + rres :=
  if match cap with Some n => (n <=? r_step s)%nat | None => false end
  then inr ROutOfBounds
  else
  let t := r_t s + h in
  match setn (r_buf s) (r_step s) (t, row) with
  | None => inr RIndexError
  | Some buf =>
      let s1 := {| r_t := t; r_step := r_step s; r_num := r_num s; r_total := r_total s;
                   r_buf := buf; r_disk := r_disk s |} in
      match (if (r_step s1 =? r_num s1)%nat
             then if Rlt_dec t tf then free_memory m None s1 else Some s1
             else Some s1) with
      | None => inr RIndexError
      | Some s2 => inl {| r_t := r_t s2; r_step := S (r_step s2); r_num := r_num s2;
                          r_total := r_total s2; r_buf := r_buf s2; r_disk := r_disk s2 |}
      end
  end.

(** [while self.time_sim < self.timeframe], 5060. *)
Fixpoint run_loop (fuel : nat) (m : mode) (cap : option nat) (tf : R)
  (steps : nat -> R * Row) (i : nat) (s : rst) : rres :=
  if Rlt_dec (r_t s) tf then
    match fuel with
    | O => ROutOfFuel
    | S f =>
        match body m cap tf (fst (steps i)) (snd (steps i)) s with
        | inl s' => run_loop f m cap tf steps (S i) s'
        | inr r => r
        end
    end
  else finalize m s.

(** A whole run: initial row, buffer of [num] steps, captured arrays of the same size if the
    model has parts that capture them. *)
Definition run (fuel : nat) (m : mode) (captures : bool) (num : nat) (tf : R) (row0 : Row)
  (steps : nat -> R * Row) : rres :=
  run_loop fuel m (if captures then Some (S num) else None) tf steps 0 (run_init num row0).

End Run.
