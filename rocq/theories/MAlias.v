(** * Arguments and changes in place.

    The functions and methods of /repo/multisim outside of precomp_funs.py (whose functions write to arrays given to
    them on purpose) are represented by the assignments that make a variable refer to (a part of) an object another
    variable refers to, the statements that change an object in place (assignment to or deletion of an item or
    attribute, methods such as append, update, pop, [inplace=True], [out=]), and the statements that steer control
    flow.  Functions of the package that are called with such objects are written out.  The representation of each
    function is in [MSrcAlias.v] (generated from the text of /repo by /verif/tools/extract_alias.py).

    Simplifications:
    - an item, attribute or view of an object counts as the object; results of operators, of library functions and
      methods that return new objects, and displays such as [[a, b]] count as new objects;
    - methods of objects other than [self] are not followed, except the changing ones of the standard types;
    - what is reached through [self] is not followed;
    - [x += y] for a variable [x] gives a new object (all such variables are numbers or texts);
    - branches, loops and exceptions as in MPy.v. *)
From Coq Require Import List Bool String PArith.
Import ListNotations.

Inductive stmt : Type :=
| Bind (x : positive) (ys : list positive) (fresh : bool)
    (* [x] refers to the object of one of [ys], or to another object if [fresh] *)
| Write (x : positive)              (* the object [x] refers to is changed *)
| Eval                              (* anything else that may raise *)
| Skip
| Seq (a b : stmt)
| Choice (a b : stmt)
| Loop (forever : bool) (body els : stmt)
| Break | Continue | Return | Raise
| Try (body handler els : stmt)
| Frame (body : stmt).              (* call of a function whose body is written out *)

(** [Wrote x]: stopped where the object of [x] is changed. *)
Inductive ending := Norm | Brk | Cnt | Ret | Exn | Wrote (x : positive).

(** Which argument a variable refers to; [None]: none. *)
Definition vars := positive -> option nat.
Definition set (e : vars) (x : positive) (o : option nat) : vars := fun y => if Pos.eqb y x then o else e y.

Inductive exec : stmt -> vars -> ending -> vars -> Prop :=
| X_bind : forall x ys f e y, In y ys -> exec (Bind x ys f) e Norm (set e x (e y))
| X_fresh : forall x ys e, exec (Bind x ys true) e Norm (set e x None)
| X_bind_exn : forall x ys f e, exec (Bind x ys f) e Exn e
| X_write : forall x e, exec (Write x) e Norm e
| X_write_exn : forall x e, exec (Write x) e Exn e
| X_wrote : forall x e, exec (Write x) e (Wrote x) e
| X_eval : forall e, exec Eval e Norm e
| X_eval_exn : forall e, exec Eval e Exn e
| X_skip : forall e, exec Skip e Norm e
| X_seq : forall a b e e1 o e2, exec a e Norm e1 -> exec b e1 o e2 -> exec (Seq a b) e o e2
| X_seq_stop : forall a b e o e1, o <> Norm -> exec a e o e1 -> exec (Seq a b) e o e1
| X_left : forall a b e o e1, exec a e o e1 -> exec (Choice a b) e o e1
| X_right : forall a b e o e1, exec b e o e1 -> exec (Choice a b) e o e1
| X_loop_end : forall body els e o e1, exec els e o e1 -> exec (Loop false body els) e o e1
| X_loop_next : forall f body els e o1 e1 o e2, o1 = Norm \/ o1 = Cnt -> exec body e o1 e1 ->
    exec (Loop f body els) e1 o e2 -> exec (Loop f body els) e o e2
| X_loop_break : forall f body els e e1, exec body e Brk e1 -> exec (Loop f body els) e Norm e1
| X_loop_stop : forall f body els e o e1, (o = Ret \/ o = Exn \/ exists x, o = Wrote x) -> exec body e o e1 ->
    exec (Loop f body els) e o e1
| X_break : forall e, exec Break e Brk e
| X_continue : forall e, exec Continue e Cnt e
| X_return : forall e, exec Return e Ret e
| X_raise : forall e, exec Raise e Exn e
| X_try_else : forall b h els e e1 o e2, exec b e Norm e1 -> exec els e1 o e2 -> exec (Try b h els) e o e2
| X_try_caught : forall b h els e e1 o e2, exec b e Exn e1 -> exec h e1 o e2 -> exec (Try b h els) e o e2
| X_try_missed : forall b h els e e1, exec b e Exn e1 -> exec (Try b h els) e Exn e1
| X_try_stop : forall b h els e o e1, o <> Norm -> o <> Exn -> exec b e o e1 -> exec (Try b h els) e o e1
| X_frame : forall b e o e1, o = Norm \/ o = Ret -> exec b e o e1 -> exec (Frame b) e Norm e1
| X_frame_stop : forall b e o e1, (o = Exn \/ exists x, o = Wrote x) -> exec b e o e1 -> exec (Frame b) e o e1.

(** A function: where it is, its parameters (without [self]) and its body; parameter number [k] is variable [k + 1]. *)
Record func := { f_file : string; f_name : string; f_line : positive; f_params : list string; f_body : stmt }.
Definition block (l : list stmt) : stmt := fold_right Seq Skip l.
Definition variable (k : nat) : positive := Pos.of_succ_nat k.

(** At the start each parameter refers to its argument. *)
Definition start (f : func) : vars :=
  fun x => let k := Nat.pred (Pos.to_nat x) in if Nat.ltb k (List.length (f_params f)) then Some k else None.

(** Some execution of [f] changes the object given as argument [k]. *)
Definition changes (f : func) (k : nat) : Prop :=
  exists x e, exec (f_body f) (start f) (Wrote x) e /\ e x = Some k.
