(** Specification vocabulary for one solver step, written without mutable memory. *)
From Coq Require Import Reals List.
From Verif Require Import MHeun.
Import ListNotations.
Open Scope R_scope.

(** Euler and Heun step of a whole cell vector with given slopes. *)
Definition euler (h : R) (y d : vec) : vec := vadd y (vscale h d).
Definition heun (h : R) (y d0 d1 : vec) : vec := vadd y (vscale (h / 2) (vadd d0 d1)).

(** A system of explicit parts given by pure slope functions [f h ports T], non-numeric parts
    and implicit parts; [gather E N I ports] refreshes the port array. *)
Definition slope := R -> vec -> vec -> vec.

(** The outcome of one undisturbed attempt with step [h] from row [prev] and ports [p0]:
    new rows of the explicit parts, of the non-numeric parts, of the implicit parts, and the
    port array handed to the next step. *)
Definition clean_step (fs : list slope) (ns : list npart) (is : list ipart)
    (gather : list vec -> list vec -> list vec -> vec -> vec)
    (h : R) (prev prevI : list vec) (p0 : vec)
    : list vec * list vec * list vec * vec :=
  let s0 := map (fun fy => fst fy h p0 (snd fy)) (combine fs prev) in
  let pr := map (fun yd => euler h (fst yd) (snd yd)) (combine prev s0) in
  let i1 := map (fun fy => fst fy (h / 2) p0 (snd fy)) (combine is prevI) in
  let p1 := gather pr (map (fun n => n h p0) ns) i1 p0 in
  let s1 := map (fun fy => fst fy h p1 (snd fy)) (combine fs pr) in
  let res := map (fun yd => heun h (fst yd) (fst (snd yd)) (snd (snd yd)))
                 (combine prev (combine s0 s1)) in
  let n2 := map (fun n => n h p1) ns in
  let i2 := map (fun fy => fst fy (h / 2) p1 (snd fy)) (combine is i1) in
  (res, n2, i2, gather res n2 i2 p1).
