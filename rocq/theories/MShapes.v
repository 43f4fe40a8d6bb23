(** * Shapes of arrays in the methods that calculate one step.

    The methods get_diff and solve of the parts (/repo/multisim/parts) call functions of
    /repo/multisim/precomp_funs.py that are compiled by numba.  Compiled code does not check indices: reading or
    writing outside an array touches foreign memory.  The methods are represented by programs of this language, calls
    written out; the programs are in [MSrcShapes.v], generated by /verif/tools/extract_shapes.py from the text of
    /repo.

    An array is represented by its shape only, except index arrays (_port_own_idx, _port_link_idx, stepnum), whose
    entries are kept, and boolean masks.

    Simplifications:
    - values of numbers are left open: which branch is taken and which entries of a mask are true is given by an
      [oracle] for each moment of the run; everything holds for all oracles;
    - a view and a copy are the same here, since only shapes matter; index arrays are never written to (a program
      that does counts as faulty);
    - an index that is computed must not be negative, only a literal -1, -2, ... counts from the end; python would
      take a computed negative index from the end, too, but every such case counts as a fault here;
    - the condition of [if] must be a single number;
    - [x += y] on an array must not change its shape;
    - if T_port.ndim == 1 (precomp_funs.py 2296 and others) is taken to be true, as it is for all parts here;
    - series_circuit_UA (precomp_funs.py 5296-5320) is one operation on all its arguments;
    - print does nothing; raise ends the run in an orderly way. *)
From Coq Require Import ZArith List Bool String.
Import ListNotations.
Local Open Scope Z_scope.

(** Whole numbers: constants, variables, sums, entries of index arrays, lengths and sizes of arrays. *)
Inductive ix : Type :=
| IC (z : Z) | IV (x : positive) | IAdd (a b : ix) | ISub (a b : ix) | IMul (a b : ix)
| IElem (x : positive) (i : ix) | ILen (x : positive) (d : nat) | ISize (x : positive).
(** Bounds and steps of slices. *)
Inductive bound := BNone | BIx (i : ix) | BEnd (k : positive).
Inductive step := SOne | SRev | SBy (i : ix).
(** What is written in brackets, for one dimension: an index, a negative literal, a slice, an index array. *)
Inductive sel := At (i : ix) | End (k : positive) | Sl (lo hi : bound) (st : step) | Pick (x : positive).
Inductive expr : Type :=
| XNum | XVar (x : positive) | XInt (i : ix)
| XBin (a b : expr)                                  (* a + b etc., with broadcasting *)
| XSel (a : expr) (l : list sel)                     (* a[...] *)
| XFlat (a : expr) (i : ix)                          (* a.flat[i] *)
| XMask (a : expr) (m : positive) (pos : bool)       (* a[m] or a[~m] *)
| XRed (strict : bool) (a : expr)                    (* sum, any, all; strict: max, min, which need an entry *)
| XCum (a : expr)                                    (* np.cumsum *)
| XLike (a : expr) | XNew (l : list ix)              (* np.zeros *)
| XRavel (a : expr) | XReshape (a b : expr).
Inductive stmt : Type :=
| Skip | Seq (a b : stmt) | Raise
| Let (x : positive) (e : expr) | LetInt (x : positive) (i : ix) | MkMask (x : positive) (e : expr)
| Store (x : positive) (l : list sel) (e : expr) | StoreFlat (x : positive) (i : ix) (e : expr)
| StoreMask (x m : positive) (pos : bool) (e : expr)
| If (c : expr) (a b : stmt) | For (x : positive) (hi : ix) (body : stmt).
Fixpoint block (l : list stmt) : stmt := match l with [] => Skip | [a] => a | a :: r => Seq a (block r) end.

Inductive value := VArr (sh : list Z) | VInt (z : Z) | VIdx (l : list Z) | VMask (l : list bool).
Definition shape (v : value) : list Z :=
  match v with VArr sh => sh | VInt _ => [] | VIdx l => [Z.of_nat (List.length l)] | VMask l => [Z.of_nat (List.length l)] end.
Definition nelem (sh : list Z) : Z := fold_right Z.mul 1 sh.

Record oracle := mkO { o_if : nat -> bool; o_mask : nat -> nat -> bool }.
Record state := mkS { clk : nat; vars : positive -> option value }.
Definition setv (f : positive -> option value) (x : positive) (v : value) : positive -> option value :=
  fun y => if Pos.eqb y x then Some v else f y.
Definition tick (st : state) : state := mkS (S (clk st)) (vars st).
Definition bind (st : state) (x : positive) (v : value) : state := mkS (clk st) (setv (vars st) x v).

(** Broadcasting, as in numpy: dimensions are compared from the last one on. *)
Definition bc1 (n m : Z) : option Z := if n =? m then Some n else if n =? 1 then Some m else if m =? 1 then Some n else None.
Fixpoint bcr (a b : list Z) : option (list Z) :=
  match a, b with
  | [], _ => Some b
  | _, [] => Some a
  | x :: a, y :: b => match bc1 x y, bcr a b with Some z, Some r => Some (z :: r) | _, _ => None end
  end.
Definition bcast (a b : list Z) : option (list Z) := option_map (@rev Z) (bcr (rev a) (rev b)).
(** Can an array of shape [e] be written to one of shape [t]? *)
Fixpoint intor (t e : list Z) : bool :=
  match e, t with
  | [], _ => true
  | _ :: _, [] => false
  | x :: e, y :: t => ((x =? y) || (x =? 1)) && intor t e
  end.
Definition into (t e : list Z) : bool := intor (rev t) (rev e).

Definition inside (n z : Z) : bool := (0 <=? z) && (z <? n).
Definition count (pos : bool) (l : list bool) : Z := Z.of_nat (List.length (filter (Bool.eqb pos) l)).

Section Run.
Variable st : state.
Fixpoint ival (i : ix) : option Z :=
  match i with
  | IC z => Some z
  | IV x => match vars st x with Some (VInt z) => Some z | _ => None end
  | IAdd a b => match ival a, ival b with Some x, Some y => Some (x + y) | _, _ => None end
  | ISub a b => match ival a, ival b with Some x, Some y => Some (x - y) | _, _ => None end
  | IMul a b => match ival a, ival b with Some x, Some y => Some (x * y) | _, _ => None end
  | IElem x i =>
      match vars st x, ival i with
      | Some (VIdx l), Some z => if inside (Z.of_nat (List.length l)) z then nth_error l (Z.to_nat z) else None
      | _, _ => None
      end
  | ILen x d => match vars st x with Some v => nth_error (shape v) d | None => None end
  | ISize x => match vars st x with Some v => Some (nelem (shape v)) | None => None end
  end.

(** A bound of a slice of a dimension of length [n]. *)
Definition bval (n : Z) (b : bound) (dflt : Z) : option Z :=
  match b with
  | BNone => Some dflt
  | BIx i => match ival i with Some z => Some (if z <? 0 then Z.max (z + n) 0 else Z.min z n) | None => None end
  | BEnd k => Some (Z.max (n - Zpos k) 0)
  end.
Definition slice (n : Z) (lo hi : bound) (s : step) : option Z :=
  match s with
  | SOne => match bval n lo 0, bval n hi n with Some a, Some b => Some (Z.max (b - a) 0) | _, _ => None end
  | SBy i =>
      match bval n lo 0, bval n hi n, ival i with
      | Some a, Some b, Some k => if k <=? 0 then None else Some (Z.max ((b - a + k - 1) / k) 0)
      | _, _, _ => None
      end
  | SRev => match lo, hi with BNone, BNone => Some n | _, _ => None end
  end.
(** The dimension left by an index or slice of a dimension of length [n]; [Some None]: none. *)
Definition sel1 (n : Z) (s : sel) : option (option Z) :=
  match s with
  | At i => match ival i with Some z => if inside n z then Some None else None | None => None end
  | End k => if Zpos k <=? n then Some None else None
  | Sl lo hi s => option_map Some (slice n lo hi s)
  | Pick x => match vars st x with Some (VIdx l) => if forallb (inside n) l then Some (Some (Z.of_nat (List.length l))) else None | _ => None end
  end.
Fixpoint select (sh : list Z) (l : list sel) : option (list Z) :=
  match l, sh with
  | [], _ => Some sh
  | _ :: _, [] => None
  | s :: l, n :: sh =>
      match sel1 n s, select sh l with
      | Some (Some m), Some r => Some (m :: r) | Some None, Some r => Some r | _, _ => None
      end
  end.

Fixpoint dims (l : list ix) : option (list Z) :=
  match l with
  | [] => Some []
  | i :: l => match ival i, dims l with Some z, Some r => if z <? 0 then None else Some (z :: r) | _, _ => None end
  end.

(** The shape of the value of an expression; [None]: an index out of bounds or shapes that do not fit. *)
Fixpoint eval (e : expr) : option (list Z) :=
  match e with
  | XNum => Some []
  | XVar x => option_map shape (vars st x)
  | XInt i => match ival i with Some _ => Some [] | None => None end
  | XBin a b => match eval a, eval b with Some x, Some y => bcast x y | _, _ => None end
  | XSel a l => match eval a with Some sh => select sh l | None => None end
  | XFlat a i => match eval a, ival i with Some sh, Some z => if inside (nelem sh) z then Some [] else None | _, _ => None end
  | XMask a m pos =>
      match eval a, vars st m with
      | Some [n], Some (VMask l) => if n =? Z.of_nat (List.length l) then Some [count pos l] else None
      | _, _ => None
      end
  | XRed strict a => match eval a with Some sh => if strict && (nelem sh <=? 0) then None else Some [] | None => None end
  | XCum a => match eval a with Some sh => Some [nelem sh] | None => None end
  | XLike a => eval a
  | XNew l => dims l
  | XRavel a => match eval a with Some sh => Some [nelem sh] | None => None end
  | XReshape a b => match eval a, eval b with Some s, Some t => if nelem s =? nelem t then Some t else None | _, _ => None end
  end.
End Run.

Inductive outcome := Done (st : state) | Raised | Fault.
Fixpoint rounds (f : state -> outcome) (x : positive) (n : nat) (k : Z) (st : state) : outcome :=
  match n with
  | 0%nat => Done st
  | S n => match f (bind st x (VInt k)) with Done st => rounds f x n (k + 1) st | r => r end
  end.

Fixpoint run (w : oracle) (p : stmt) (st : state) : outcome :=
  match p with
  | Skip => Done st
  | Seq a b => match run w a st with Done st => run w b st | r => r end
  | Raise => Raised
  | Let x e =>
      match e with
      | XVar y => match vars st y with Some v => Done (bind st x v) | None => Fault end
      | _ => match eval st e with Some sh => Done (bind st x (VArr sh)) | None => Fault end
      end
  | LetInt x i => match ival st i with Some z => Done (bind st x (VInt z)) | None => Fault end
  | MkMask x e =>
      match eval st e with
      | Some [n] => Done (tick (bind st x (VMask (map (o_mask w (clk st)) (seq 0 (Z.to_nat n))))))
      | _ => Fault
      end
  | Store x l e =>
      match vars st x, eval st e with
      | Some (VArr sh), Some s => match select st sh l with Some t => if into t s then Done st else Fault | None => Fault end
      | _, _ => Fault
      end
  | StoreFlat x i e =>
      match vars st x, ival st i, eval st e with
      | Some (VArr sh), Some z, Some [] => if inside (nelem sh) z then Done st else Fault
      | _, _, _ => Fault
      end
  | StoreMask x m pos e =>
      match vars st x, vars st m, eval st e with
      | Some (VArr [n]), Some (VMask l), Some s => if (n =? Z.of_nat (List.length l)) && into [count pos l] s then Done st else Fault
      | _, _, _ => Fault
      end
  | If c a b =>
      match eval st c with
      | Some sh => if forallb (Z.eqb 1) sh then (if o_if w (clk st) then run w a (tick st) else run w b (tick st)) else Fault
      | None => Fault
      end
  | For x hi b => match ival st hi with Some z => rounds (run w b) x (Z.to_nat z) 0 st | None => Fault end
  end.

(** A method: the part, its name, the attributes it uses with their variables, its program. *)
Record method := mkM { m_part : string; m_name : string; m_attrs : list (string * positive); m_body : stmt }.

(** One call: the variables of the program are local, the attributes are taken from and left in the part. *)
Definition attributes := string -> option value.
Fixpoint load (l : list (string * positive)) (a : attributes) : positive -> option value :=
  match l with
  | [] => fun _ => None
  | (s, x) :: r => fun y => if Pos.eqb y x then a s else load r a y
  end.
Fixpoint save (l : list (string * positive)) (f : positive -> option value) (a : attributes) : attributes :=
  match l with
  | [] => a
  | (s, x) :: r => fun t => if String.eqb t s then f x else save r f a t
  end.
Inductive result := Returned (a : attributes) | Raises | Faults.
Definition call (w : oracle) (m : method) (a : attributes) : result :=
  match run w (m_body m) (mkS 0 (load (m_attrs m) a)) with
  | Done st => Returned (save (m_attrs m) (vars st) a)
  | Raised => Raises
  | Fault => Faults
  end.
(** Any number of calls, one after the other, with any data. *)
Fixpoint calls (ws : list oracle) (m : method) (a : attributes) : result :=
  match ws with
  | [] => Returned a
  | w :: ws => match call w m a with Returned a => calls ws m a | r => r end
  end.
