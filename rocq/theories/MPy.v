(** * Control flow and names of the Python functions of the package.

    The bodies of the functions, methods and module files of /repo/multisim are
    represented by the reads and writes of names they perform, in evaluation
    order, and by the statements that steer control flow.  The representation
    of each function is in [MSrc*.v] (generated from the text of /repo by
    /verif/tools/extract.py; every entry carries file and line).

    Simplifications:
    - values are not represented: a branch may go either way, a loop may run
      any number of times (a [while True] is left only by [break]);
    - every evaluation of an expression or assignment may raise;
    - an exception handler may or may not match the exception raised;
    - leaving a [with] block does not swallow exceptions;
    - the element of a comprehension and the body of a lambda may be evaluated
      or not, where they are written;
    - functions are called after their module has been loaded; variables of an
      enclosing function are bound when the inner function runs. *)
From Coq Require Import List Bool String PArith.
Import ListNotations.

(** A name of a function is referred to by its number in [f_names]. *)
Inductive stmt : Type :=
| Use (xs : list positive)        (* evaluate an expression reading these names *)
| Def (xs : list positive)        (* bind these names (assignment, import, loop target) *)
| Del (xs : list positive)        (* unbind (del, end of `except ... as x`) *)
| Skip
| Seq (a b : stmt)
| Choice (c : positive) (a b : stmt) (* if / else, assert; c: the condition *)
| Loop (forever : bool) (body els : stmt) (* for, while; [forever]: while True *)
| Break | Continue | Return | Raise
| Try (body handler els : stmt)   (* try / except / else; no finally in /repo *)
| Frame (body : stmt).            (* call of a method whose body is written out *)

(** How the execution of a statement can end.  [Unbound]: the name in question
    was read while it was not bound (UnboundLocalError, NameError or
    AttributeError). *)
Inductive ending := Norm | Brk | Cnt | Ret | Exn | Unbound.

Definition reads (x : positive) (xs : list positive) : bool := existsb (Pos.eqb x) xs.

(** Execution, following one name [x]: [run x s b o b'] -- statement [s],
    started with [x] bound iff [b], can end as [o] with [x] bound iff [b'].
    [known] lists conditions whose outcome is the same throughout the
    execution; every other branch may go either way each time. *)
Definition oracle := positive -> option bool.
Definition nothing_known : oracle := fun _ => None.

Inductive run (known : oracle) (x : positive) : stmt -> bool -> ending -> bool -> Prop :=
| R_use : forall xs b, (reads x xs = true -> b = true) -> run known x (Use xs) b Norm b
| R_use_exn : forall xs b, run known x (Use xs) b Exn b
| R_use_unbound : forall xs, reads x xs = true -> run known x (Use xs) false Unbound false
| R_def : forall xs b, run known x (Def xs) b Norm (reads x xs || b)
| R_def_exn : forall xs b, run known x (Def xs) b Exn b
| R_def_exn_late : forall xs b, run known x (Def xs) b Exn (reads x xs || b)
| R_del : forall xs b, run known x (Del xs) b Norm (negb (reads x xs) && b)
| R_skip : forall b, run known x Skip b Norm b
| R_seq : forall a c b b1 o b2,
    run known x a b Norm b1 -> run known x c b1 o b2 -> run known x (Seq a c) b o b2
| R_seq_stop : forall a c b o b1,
    o <> Norm -> run known x a b o b1 -> run known x (Seq a c) b o b1
| R_left : forall k a c b o b1, known k <> Some false ->
    run known x a b o b1 -> run known x (Choice k a c) b o b1
| R_right : forall k a c b o b1, known k <> Some true ->
    run known x c b o b1 -> run known x (Choice k a c) b o b1
| R_loop_end : forall body els b o b1,
    run known x els b o b1 -> run known x (Loop false body els) b o b1
| R_loop_next : forall f body els b o1 b1 o b2,
    o1 = Norm \/ o1 = Cnt -> run known x body b o1 b1 ->
    run known x (Loop f body els) b1 o b2 -> run known x (Loop f body els) b o b2
| R_loop_break : forall f body els b b1,
    run known x body b Brk b1 -> run known x (Loop f body els) b Norm b1
| R_loop_stop : forall f body els b o b1,
    o = Ret \/ o = Exn \/ o = Unbound -> run known x body b o b1 ->
    run known x (Loop f body els) b o b1
| R_break : forall b, run known x Break b Brk b
| R_continue : forall b, run known x Continue b Cnt b
| R_return : forall b, run known x Return b Ret b
| R_raise : forall b, run known x Raise b Exn b
| R_try_else : forall body h els b b1 o b2,
    run known x body b Norm b1 -> run known x els b1 o b2 -> run known x (Try body h els) b o b2
| R_try_caught : forall body h els b b1 o b2,
    run known x body b Exn b1 -> run known x h b1 o b2 -> run known x (Try body h els) b o b2
| R_try_missed : forall body h els b b1,
    run known x body b Exn b1 -> run known x (Try body h els) b Exn b1
| R_try_stop : forall body h els b o b1,
    o <> Norm -> o <> Exn -> run known x body b o b1 -> run known x (Try body h els) b o b1
| R_frame : forall body b o b1,
    o = Norm \/ o = Ret -> run known x body b o b1 -> run known x (Frame body) b Norm b1
| R_frame_stop : forall body b o b1,
    o = Exn \/ o = Unbound -> run known x body b o b1 -> run known x (Frame body) b o b1.

(** A function, method, class body or module file: where it is, the names it
    uses -- parameters, variables of an enclosing function, own variables,
    names looked up in the module or among the builtins -- and its body, in
    which names are numbered from 1 in that order. *)
Record func := { f_file : string; f_name : string; f_line : positive;
                 f_params : list string; f_closure : list string;
                 f_locals : list string; f_outer : list string;
                 f_conds : list string; f_body : stmt }.

Definition f_names (f : func) : list string :=
  f_params f ++ f_closure f ++ f_locals f ++ f_outer f.

(** The number of the n-th entry of [f_names] is n+1. *)
Definition number (n : nat) : positive := Pos.of_succ_nat n.

(** Sequence of statements. *)
Definition block (l : list stmt) : stmt := fold_right Seq Skip l.

(** Names every Python module finds without defining them (built-in functions
    and exceptions used in /repo; Python 3 documentation, "Built-in Functions"
    and "Built-in Exceptions"). *)
Definition builtins : list string := [
  "abs"; "all"; "any"; "bool"; "breakpoint"; "dict"; "dir"; "enumerate"; "eval"; "exec"; "filter"; "float";
  "format"; "getattr"; "globals"; "hasattr"; "hash"; "id"; "input"; "int"; "isinstance"; "iter"; "len"; "list";
  "locals"; "map"; "max"; "min"; "next"; "object"; "open"; "print"; "property"; "range"; "repr"; "reversed";
  "round"; "set"; "setattr"; "slice"; "sorted"; "staticmethod"; "classmethod"; "str"; "sum"; "super"; "tuple";
  "type"; "zip"; "callable"; "complex";
  "AttributeError"; "AssertionError"; "BaseException"; "Exception"; "FileExistsError"; "FileNotFoundError";
  "ImportError"; "IndexError"; "KeyError"; "KeyboardInterrupt"; "MemoryError"; "ModuleNotFoundError"; "NameError"; "NotADirectoryError";
  "NotImplementedError"; "OSError"; "OverflowError"; "RuntimeError"; "StopIteration"; "TypeError";
  "UserWarning"; "ValueError"; "Warning"; "DeprecationWarning"; "FutureWarning"; "RuntimeWarning";
  "ZeroDivisionError"; "__file__"; "__name__"; "__doc__"]%string.

(** State of the k-th name of function [f] of module [m] when [f] starts:
    parameters and variables of an enclosing function are bound, own variables
    are not; any other name is bound if it is a builtin, else as loading the
    module has left it, and unbound if the module does not have it. *)
Inductive entry (m f : func) (k : nat) : bool -> Prop :=
| E_given : k < List.length (f_params f ++ f_closure f) -> entry m f k true
| E_local : List.length (f_params f ++ f_closure f) <= k ->
    k < List.length (f_params f ++ f_closure f ++ f_locals f) -> entry m f k false
| E_builtin : forall n, List.length (f_params f ++ f_closure f ++ f_locals f) <= k ->
    nth_error (f_names f) k = Some n -> In n builtins -> entry m f k true
| E_module : forall n j b, List.length (f_params f ++ f_closure f ++ f_locals f) <= k ->
    nth_error (f_names f) k = Some n -> ~ In n builtins ->
    nth_error (f_locals m) j = Some n ->
    run nothing_known (number (List.length (f_params m ++ f_closure m) + j)) (f_body m) false Norm b ->
    entry m f k b
| E_missing : forall n, List.length (f_params f ++ f_closure f ++ f_locals f) <= k ->
    nth_error (f_names f) k = Some n -> ~ In n builtins ->
    ~ In n (f_locals m) -> entry m f k false.

(** Some execution of [f] reads its k-th name while it is not bound. *)
Definition unbound_read (m f : func) (k : nat) : Prop :=
  exists b b2, entry m f k b /\ run nothing_known (number k) (f_body f) b Unbound b2.
