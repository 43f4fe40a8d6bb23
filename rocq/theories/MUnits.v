(** * Programs over arrays, in any system of units.

    The compiled functions of /repo/multisim/precomp_funs.py (all but those named in SKIP of
    /verif/tools/extract_units.py: functions taking functions, wrappers, texts, structured arrays, regression models and
    fits over time) are represented by programs of this language, calls of other functions of the file written out.
    The programs are in [MSrcUnits.v], generated from the text of /repo.

    Numbers are reals; an array is a view of a block of memory, as in numpy: a block and the place in the block of
    each entry.  Constants stand for quantities: [Const q u] is [q] units [u], e.g. 9.81 m/s2; its number depends on
    the system of units.

    Simplifications:
    - truth values are 0 and 1;
    - which entries an index or slice refers to, the entries a sum or maximum runs over, the number of rounds of a loop
      and the values of functions of plain numbers (exp, log, powers that are not whole, [and], [~], shapes) are left
      open: they are given by an [oracle], for each place in the text and each moment of the run (counted by the arrays
      and views made before), as functions of plain numbers; everything holds for all oracles;
    - reading a variable that was never assigned gives 0; dividing by 0 gives 0 (C168 and others deal with that);
    - [x += y] changes the array for the arrays dt_arr, lam_mean, Re, stability_breaches, err and makes a new one
      for other variables;
    - [print] does nothing. *)
From Coq Require Import Reals ZArith QArith Qreals List Bool String.
Import ListNotations.
Local Open Scope R_scope.

(** Exponents of metre, kilogram, second and kelvin, in halves. *)
Record unit := mkU { u_m : Z; u_kg : Z; u_s : Z; u_K : Z }.
Definition none : unit := mkU 0 0 0 0.
Definition utimes (a b : unit) : unit := mkU (u_m a + u_m b) (u_kg a + u_kg b) (u_s a + u_s b) (u_K a + u_K b).
Definition upow (a : unit) (n : Z) : unit := mkU (n * u_m a) (n * u_kg a) (n * u_s a) (n * u_K a).
Definition uover (a b : unit) : unit := utimes a (upow b (-1)).
Definition ueqb (a b : unit) : bool := (u_m a =? u_m b)%Z && (u_kg a =? u_kg b)%Z && (u_s a =? u_s b)%Z && (u_K a =? u_K b)%Z.
Definition ueven (a : unit) : bool := Z.even (u_m a) && Z.even (u_kg a) && Z.even (u_s a) && Z.even (u_K a).
Definition uhalf (a : unit) : unit := mkU (Z.div2 (u_m a)) (Z.div2 (u_kg a)) (Z.div2 (u_s a)) (Z.div2 (u_K a)).

(** A system of units: how many of its units make one metre, kilogram, second, kelvin. *)
Record system := mkSys { c_m : R; c_kg : R; c_s : R; c_K : R }.
Definition si : system := mkSys 1 1 1 1.
Definition positive_system (s : system) : Prop := 0 < c_m s /\ 0 < c_kg s /\ 0 < c_s s /\ 0 < c_K s.
(** Number of units [u] of the system in one SI unit [u]. *)
Definition factor (s : system) (u : unit) : R :=
  powerRZ (sqrt (c_m s)) (u_m u) * powerRZ (sqrt (c_kg s)) (u_kg u) * powerRZ (sqrt (c_s s)) (u_s u) * powerRZ (sqrt (c_K s)) (u_K u).

Inductive rel := Lt | Le | Gt | Ge | Eq | Ne.
Inductive red := Sum | Maxi | Mini.
Inductive expr : Type :=
| Var (x : positive)
| Const (q : Q) (u : unit)
| Add (a b : expr) | Sub (a b : expr) | Mul (a b : expr) | Div (a b : expr)
| Neg (a : expr) | Abs (a : expr) | Max (a b : expr) | Min (a b : expr)
| Pow (a : expr) (n : Z) | Sqrt (a : expr)
| Fn (site : positive) (args : exprs)            (* function of plain numbers *)
| Sel (site : positive) (a : expr) (idx : exprs) (* entries of an array *)
| Red (op : red) (site : positive) (a : expr)    (* sum or largest entry *)
| Cmp (op : rel) (a b : expr)
| Ite (c a b : expr)
with exprs : Type := Nil | Cons (e : expr) (es : exprs).

Inductive stmt : Type :=
| Let (x : positive) (e : expr)                                    (* new array *)
| View (x y : positive) (site : positive) (idx : exprs)            (* x = y[idx] *)
| Store (x : positive) (site : positive) (idx : exprs) (e : expr)  (* x[idx] = e *)
| If (c : expr) (a b : stmt)
| For (x : positive) (site : positive) (idx : exprs) (body : stmt)
| Skip | Seq (a b : stmt) | Break | Return | Raise
| Frame (body : stmt).                                             (* call of a function, written out *)
Fixpoint block (l : list stmt) : stmt := match l with [] => Skip | [a] => a | a :: r => Seq a (block r) end.

Definition arr := nat -> R.
Record oracle := mkO {
  o_sel : positive -> nat -> list arr -> nat -> nat;
  o_put : positive -> nat -> list arr -> (nat -> nat) -> nat -> option nat;
  o_red : positive -> nat -> nat -> nat * list nat;
  o_fn : positive -> nat -> list arr -> arr;
  o_cnt : positive -> nat -> list arr -> nat;
  o_itv : positive -> nat -> list arr -> nat -> R }.

(** Memory: blocks in use, variables (block and place of each entry), contents. *)
Record state := mkS { next : nat; vars : positive -> option (nat * (nat -> nat)); heap : nat -> nat -> R }.
Definition value (st : state) (x : positive) : arr :=
  match vars st x with Some (b, g) => fun i => heap st b (g i) | None => fun _ => 0 end.

Definition cmp (op : rel) (a b : R) : R :=
  match op with
  | Lt => if Rlt_dec a b then 1 else 0 | Le => if Rle_dec a b then 1 else 0
  | Gt => if Rlt_dec b a then 1 else 0 | Ge => if Rle_dec b a then 1 else 0
  | Eq => if Req_EM_T a b then 1 else 0 | Ne => if Req_EM_T a b then 0 else 1
  end.
Definition reduce (op : red) (a : arr) (p : nat * list nat) : R :=
  fold_right (fun i r => match op with Sum => a i + r | Maxi => Rmax (a i) r | Mini => Rmin (a i) r end)
    (match op with Sum => 0 | _ => a (fst p) end) (snd p).

Section Run.
Variable O : oracle.
Variable S : system.
Variable st : state.
Fixpoint eval (e : expr) : arr :=
  match e with
  | Var x => value st x
  | Const q u => fun _ => factor S u * Q2R q
  | Add a b => fun i => eval a i + eval b i
  | Sub a b => fun i => eval a i - eval b i
  | Mul a b => fun i => eval a i * eval b i
  | Div a b => fun i => eval a i / eval b i
  | Neg a => fun i => - eval a i
  | Abs a => fun i => Rabs (eval a i)
  | Max a b => fun i => Rmax (eval a i) (eval b i)
  | Min a b => fun i => Rmin (eval a i) (eval b i)
  | Pow a n => fun i => powerRZ (eval a i) n
  | Sqrt a => fun i => sqrt (eval a i)
  | Fn s l => o_fn O s (next st) (evals l)
  | Sel s a l => let v := evals l in fun i => eval a (o_sel O s (next st) v i)
  | Red op s a => fun i => reduce op (eval a) (o_red O s (next st) i)
  | Cmp op a b => fun i => cmp op (eval a i) (eval b i)
  | Ite c a b => fun i => if Req_EM_T (eval c i) 0 then eval b i else eval a i
  end
with evals (l : exprs) : list arr :=
  match l with Nil => [] | Cons e r => eval e :: evals r end.
End Run.

Definition setv (f : positive -> option (nat * (nat -> nat))) (x : positive) (v : option (nat * (nat -> nat))) :=
  fun y => if Pos.eqb y x then v else f y.
Definition seth (h : nat -> nat -> R) (b : nat) (a : arr) : nat -> nat -> R := fun c j => if Nat.eqb c b then a j else h c j.
(** New array for [x]. *)
Definition fresh (st : state) (x : positive) (a : arr) : state :=
  mkS (S (next st)) (setv (vars st) x (Some (next st, fun i => i))) (seth (heap st) (next st) a).

Inductive ending := Norm | Brk | Ret | Exn.

Fixpoint rounds (f : state -> ending * state) (pre : nat -> state -> state) (n k : nat) (st : state) : ending * state :=
  match n with
  | 0%nat => (Norm, st)
  | S n => match f (pre k st) with
           | (Norm, st) => rounds f pre n (S k) st
           | (Brk, st) => (Norm, st)
           | r => r
           end
  end.

Fixpoint run (O : oracle) (Y : system) (p : stmt) (st : state) : ending * state :=
  match p with
  | Let x e => (Norm, fresh st x (eval O Y st e))
  | View x y site idx =>
      let v := evals O Y st idx in
      (Norm, mkS (S (next st))
               (setv (vars st) x (match vars st y with Some (b, g) => Some (b, fun i => g (o_sel O site (next st) v i)) | None => None end))
               (heap st))
  | Store x site idx e =>
      let v := evals O Y st idx in
      match vars st x with
      | Some (b, g) =>
          (Norm, mkS (next st) (vars st)
                   (seth (heap st) b (fun j => match o_put O site (next st) v g j with Some i => eval O Y st e i | None => heap st b j end)))
      | None => (Norm, st)
      end
  | If c a b => if Req_EM_T (eval O Y st c 0%nat) 0 then run O Y b st else run O Y a st
  | For x site idx body =>
      let v := evals O Y st idx in
      rounds (run O Y body) (fun k s => fresh s x (fun _ => o_itv O site (next st) v k)) (o_cnt O site (next st) v) 0 st
  | Skip => (Norm, st)
  | Seq a b => match run O Y a st with (Norm, st) => run O Y b st | r => r end
  | Break => (Brk, st)
  | Return => (Ret, st)
  | Raise => (Exn, st)
  | Frame b => match run O Y b st with (Exn, st) => (Exn, st) | (_, st) => (Norm, st) end
  end.

(** A function: parameters and results with their units, the units of all its variables. *)
Record func := mkF { f_name : string; f_line : positive; f_params : list (string * positive); f_results : list positive;
  f_units : list (positive * unit); f_body : stmt }.
Fixpoint look (l : list (positive * unit)) (x : positive) : unit :=
  match l with [] => none | (y, u) :: r => if Pos.eqb x y then u else look r x end.
Definition unit_of (f : func) (x : positive) : unit := look (f_units f) x.
