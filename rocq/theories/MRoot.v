(** Model of the root solvers for arrays.

    Code: /repo/multisim/precomp_funs.py [root_array_secant] (6104-6157), [root_array_newton] (6161-6231),
    [root_array_newton_fast] (6235-6304; its secant branch) and [root_secant] (6308-6366).

    Simplifications: real arithmetic; an array of [n] cells is a function on cell numbers of which the first
    [n] count; [args], [yprev], [h] and [input_args] are part of the function; [dx] (6131) is any number.  A
    division by 0 (NaN or infinity in the code) is [None] where it can happen. *)
From Coq Require Import Reals List Bool Arith.
Import ListNotations.
Open Scope R_scope.

Definition vec := nat -> R.
Definition rnz (a b : R) : bool := if Req_EM_T a b then false else true.
Definition rle (a b : R) : bool := if Rle_dec a b then true else false.
Definition rlt (a b : R) : bool := if Rlt_dec a b then true else false.
Definition some_cell (n : nat) (c : nat -> bool) : bool := existsb c (seq 0 n).
Definition cells_mean (l : list R) : R := fold_right Rplus 0 l / INR (length l).

(** 6132: second starting value. *)
Definition beside (dx : R) (x : vec) : vec := fun i =>
  x i * (1 + dx) + (if Rle_dec 0 (x i) then dx else - dx).

(** 6137-6155: [k] iterations of the secant method.  [go] is whether to go on, given the cells with a
    derivative and the steps. *)
Fixpoint secant_loop (n : nat) (f : vec -> vec) (go : (nat -> bool) -> vec -> bool) (k : nat)
    (p p1 q0 q1 : vec) (active : nat -> bool) : vec :=
  match k with
  | O => p
  | S k' =>
      let nz := fun i => rnz (q1 i) (q0 i) in
      if some_cell n nz then
        let dp := fun i => q1 i * (p1 i - p i) / (q1 i - q0 i) in
        let pn := fun i => if nz i then p1 i - dp i else if active i then (p1 i + p i) / 2 else p i in
        if go nz dp then secant_loop n f go k' p1 pn q1 (f pn) (fun i => active i && nz i)%bool else pn
      else fun i => (p1 i + p i) / 2
  end.
(** 6149-6151: some cell with a derivative is not yet converged. *)
Definition go_any (n : nat) (tol : R) (nz : nat -> bool) (dp : vec) : bool :=
  some_cell n (fun i => nz i && rle tol (Rabs (dp i)))%bool.
(** 6295: mean over the cells with a derivative. *)
Definition go_mean (n : nat) (tol : R) (nz : nat -> bool) (dp : vec) : bool :=
  rlt tol (cells_mean (map (fun i => (dp i - tol) ^ 2) (filter nz (seq 0 n)))).
Definition secant_with (go : (nat -> bool) -> vec -> bool) (n : nat) (dx : R) (f : vec -> vec) (x0 : vec)
    (k : nat) : vec :=
  let p1 := beside dx x0 in secant_loop n f go k x0 p1 (f x0) (f p1) (fun _ => true).
(** [root_array_secant]; the same statements are in [root_array_newton] without [fprime] (6202-6229). *)
Definition root_array_secant (n : nat) (dx : R) (f : vec -> vec) (x0 : vec) (tol : R) (k : nat) : vec :=
  secant_with (go_any n tol) n dx f x0 k.
(** [root_array_newton_fast] without [fprime]. *)
Definition root_array_fast (n : nat) (dx : R) (f : vec -> vec) (x0 : vec) (tol : R) (k : nat) : vec :=
  secant_with (go_mean n tol) n dx f x0 k.

(** [root_array_newton] with [fprime], 6178-6200. *)
Fixpoint newton_loop (n : nat) (f fp : vec -> vec) (tol : R) (k : nat) (p : vec) : vec :=
  match k with
  | O => p
  | S k' =>
      if some_cell n (fun i => rnz (f p i) 0) then
        let nz := fun i => rnz (fp p i) 0 in
        if some_cell n nz then
          let dp := fun i => f p i / fp p i in
          let pn := fun i => if nz i then p i - dp i else p i in
          if go_any n tol nz dp then newton_loop n f fp tol k' pn else pn
        else p
      else p
  end.

(** [root_secant], 6351-6366: convergence test, then step. *)
Definition accept (n : nat) (tol : R) (q : vec) : bool :=
  rlt (cells_mean (map (fun i => (q i - tol) ^ 2) (seq 0 n))) tol.
Fixpoint sec_loop (n : nat) (f : vec -> vec) (tol : R) (k : nat) (p0 p1 q0 q1 : vec) : option vec :=
  match k with
  | O => Some p1
  | S k' =>
      if accept n tol q1 then Some p1 else
      let gt := fun i => (rlt (/ 10 ^ 8) (Rabs (q1 i)) || rlt (/ 10 ^ 8) (Rabs (q0 i)) || rnz (q0 i) (q1 i))%bool in
      if some_cell n (fun i => gt i && negb (rnz (q1 i) (q0 i)))%bool then None else
      let p2 := fun i => (p0 i * q1 i - p1 i * q0 i) / (q1 i - q0 i) in
      let p0' := fun i => if gt i then p1 i else p0 i in
      let p1' := fun i => if gt i then p2 i else p1 i in
      sec_loop n f tol k' p0' p1' q1 (f p1')
  end.
(** 6336-6345: start 10 % above and below; where the function has the same sign at both ends, the two
    positions are swapped, the two function values are not. *)
Definition root_secant (n : nat) (f : vec -> vec) (x0 : vec) (tol : R) (k : nat) : option vec :=
  let u := fun i => x0 i * (1 + / 10) in
  let v := fun i => x0 i * (1 - / 10) in
  let q0 := f u in
  let q1 := f v in
  let swap := fun i => rle 0 (q0 i * q1 i) in
  sec_loop n f tol k (fun i => if swap i then v i else u i) (fun i => if swap i then u i else v i) q0 q1.
