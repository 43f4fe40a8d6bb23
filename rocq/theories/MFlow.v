(** Model of the in-part flow processing.
    Source: multisim/precomp_funs.py lines 88-245.
    Arrays are functions from the index; the length is a separate number.  Row writes to the
    result history ([res_dm[stepnum[0]] = ...]) are the subject of MRun.v and left out here,
    as is the flag [process_flows] (the model describes the call that does the work). *)
From Coq Require Import Reals List Arith Bool.
Open Scope R_scope.

Definition arr := nat -> R.

(** Flow arrays of one part: inflow into each cell from the cell above ([dm_top]), from the
    cell below ([dm_bot]), and inflow through each port ([dm_port]). *)
Record flows := { f_top : arr; f_bot : arr; f_port : arr }.

(** All zero, as allocated: multisim/parts/pipe.py 147-149, tes.py 233-235. *)
Definition flows0 : flows := {| f_top := fun _ => 0; f_bot := fun _ => 0; f_port := fun _ => 0 |}.

(** numpy slice assignment [a[lo:hi] = v]. *)
Definition fill (lo hi : nat) (v : R) (a : arr) : arr :=
  fun j => if (lo <=? j)%nat && (j <? hi)%nat then v else a j.
(** [a[k] = v]. *)
Definition put (k : nat) (v : R) (a : arr) : arr := fun j => if (j =? k)%nat then v else a j.
(** [a[lo:hi] += v]. *)
Definition fill_add (lo hi : nat) (v : R) (a : arr) : arr :=
  fun j => if (lo <=? j)%nat && (j <? hi)%nat then a j + v else a j.

(** [_process_flow_invar], lines 88-121, for [n] cells and [np] ports (two in practice; the
    code addresses the first and the last). *)
Definition process_flow_invar (n np : nat) (io : R) (f : flows) : flows :=
  if Rle_dec 0 io then
    {| f_top := fill 1 n io (f_top f);
       f_bot := fill 0 (n - 1) 0 (f_bot f);
       f_port := put (np - 1) 0 (put 0 io (f_port f)) |}
  else
    {| f_top := fill 1 n 0 (f_top f);
       f_bot := fill 0 (n - 1) (- io) (f_bot f);
       f_port := put 0 0 (put (np - 1) (- io) (f_port f)) |}.

(** [np.cumsum(dm_io)[i]]. *)
Fixpoint cumsum (io : arr) (i : nat) : R :=
  match i with O => io O | S k => cumsum io k + io (S k) end.

(** The loop of line 183: [for i in range(m): dm[own[i]:own[i+1]] += cs[i]]. *)
Fixpoint dm_loop (own : nat -> nat) (io : arr) (m : nat) (dm : arr) : arr :=
  match m with
  | O => dm
  | S k => fill_add (own k) (own (S k)) (cumsum io k) (dm_loop own io k dm)
  end.

(** [a[a < 0] = 0]. *)
Definition clip0 (a : arr) : arr := fun j => if Rlt_dec (a j) 0 then 0 else a j.

(** [_process_flow_var], lines 159-205, for [n] cells and [np] ports.  Second component: the
    cell flow array [dm] as stored. *)
Definition process_flow_var (n np : nat) (own : nat -> nat) (io : arr) (f : flows)
  : flows * arr :=
  let dm := dm_loop own io (np - 1) (fun _ => 0) in
  let top := fun j => if (1 <=? j)%nat && (j <? n)%nat then dm (j - 1)%nat else f_top f j in
  let bot := fun j => if (j <? n - 1)%nat then - dm j else f_bot f j in
  ({| f_top := clip0 top; f_bot := clip0 bot; f_port := clip0 io |},
   put (n - 1) (dm (n - 2)%nat) dm).

(** [_process_flow_multi_flow], lines 209-245: one flow per channel [c]; the port array has
    two entries per channel. *)
Definition process_flow_multi (n nch : nat) (io : arr)
  (top bot : nat -> arr) (port : arr) : (nat -> arr) * (nat -> arr) * arr :=
  (fun c => if (c <? nch)%nat
            then (if Rle_dec 0 (io c) then fill 1 n (io c) (top c) else fill 1 n 0 (top c))
            else top c,
   fun c => if (c <? nch)%nat
            then (if Rle_dec 0 (io c) then fill 0 (n - 1) 0 (bot c)
                  else fill 0 (n - 1) (- io c) (bot c))
            else bot c,
   fun k => if (k <? 2 * nch)%nat
            then (if Nat.even k
                  then (if Rle_dec 0 (io (k / 2)%nat) then io (k / 2)%nat else 0)
                  else (if Rle_dec 0 (io (k / 2)%nat) then 0 else - io (k / 2)%nat))
            else port k).
