(** Model of the start value of the long-term CHP optimisation.

    Code: /repo/multisim/parts/controllers.py [_longterm_opt_pred] (1815-1823), [_preopt_x0]
    (2161-2199).

    Simplifications: real arithmetic.  [np.argsort] is an argument (numpy does not fix the order
    of equal entries); boolean masks are lists of [bool] as long as the plan. *)
From Coq Require Import Reals List Bool Arith.
From Verif Require Import MMpcCost MMpc.
Import ListNotations.
Open Scope R_scope.

(** 1815-1819: start from the electric power profile. *)
Definition init_entry (lo p : R) : R :=
  let x := if Rlt_dec 1 p then 1 else p in if Rlt_dec x lo then 0 else x.
Definition x_init (lo pmax : R) (user base : list R) : list R :=
  map (fun p => init_entry lo (p / pmax)) (map2 Rplus user base).

Definition below (b : R) (l : list R) : list bool :=
  map (fun v => if Rlt_dec v b then true else false) l.

(** 2177-2184: raise the entries where the storage is (nearly) empty.  The last line limits all
    entries, not only the masked ones. *)
Definition raise_entry (m : bool) (x : R) : R :=
  let x := if m then x * (105 / 100) else x in
  let x := if m then if Rlt_dec x (1 / 2) then 1 / 2 else x else x in
  if Rlt_dec 1 x then 1 else x.
Definition raise_step (soc_min : R) (empty : list R -> list R) (x : list R) : list R :=
  map2 raise_entry (below (soc_min * (1 / 10)) (empty x)) x.

(** [x[mask]] and [x[mask] = v]. *)
Fixpoint select (m : list bool) (x : list R) : list R :=
  match m, x with
  | true :: m, a :: x => a :: select m x
  | false :: m, _ :: x => select m x
  | _, _ => []
  end.
Fixpoint put (m : list bool) (x v : list R) : list R :=
  match m, x with
  | true :: m, a :: x => match v with b :: v => b :: put m x v | [] => a :: put m x [] end
  | false :: m, a :: x => a :: put m x v
  | _, _ => x
  end.

(** [np.linspace(-0.2, -0.01, n)]. *)
Definition minus_arr (n : nat) : list R :=
  match n with
  | S (S k) => map (fun i => - (1 / 5) + INR i * ((1 / 5 - 1 / 100) / INR (S k))) (seq 0 n)
  | _ => map (fun _ => - (1 / 5)) (seq 0 n)
  end.

Definition set_nth (i : nat) (v : R) (l : list R) : list R := firstn i l ++ v :: skipn (S i) l.
(** [a[idx] = a[idx] + d] with distinct indices. *)
Definition add_at (idx : list nat) (d a : list R) : list R :=
  fold_left (fun l p => set_nth (fst p) (nth (fst p) a 0 + snd p) l) (combine idx d) a.

(** 2186-2193: lower the entries where the storage overflowed at the beginning ([mask] is
    computed once, 2166). *)
Definition lower_step (argsort : list R -> list nat) (mask : list bool) (x : list R) : list R :=
  let v := select mask x in
  let v := add_at (argsort v) (minus_arr (length (argsort v))) v in
  put mask x (map (fun a => if Rlt_dec a (1 / 2) then 0 else a) v).

(** 2171-2198; [fuel] is [101 - i]. *)
Fixpoint preopt_loop (fuel : nat) (argsort : list R -> list nat) (soc_min : R)
    (empty full : list R -> list R) (mask : list bool) (x0 x : list R) : list R :=
  match fuel with
  | O => x0
  | S fuel =>
      if (any_neg (full x) || any_neg (empty x))%bool then
        let x := if any_neg (empty x) then raise_step soc_min empty x else x in
        let x := if any_neg (full x) then lower_step argsort mask x else x in
        match fuel with
        | O => x0
        | _ => preopt_loop fuel argsort soc_min empty full mask x0 x
        end
      else x
  end.
Definition preopt (argsort : list R -> list nat) (soc_min : R) (empty full : list R -> list R)
    (x0 : list R) : list R :=
  preopt_loop 101 argsort soc_min empty full (below 0 (full x0)) x0 x0.
