(** * Calls within the package: finding the callee and binding the arguments.

    The tables of module names, classes, calls and solver inputs are in
    [MSrcCalls.v] (generated from the text of /repo by tools/extract_calls.py).

    Simplifications: a name of a module has the last binding the module file
    gives it at top level; decorators keep the signature ([njit], [jit],
    [override] when the external toolbox is absent); values are not
    represented, only the name of an argument that is a plain variable or an
    attribute; the contents of [*x] and [**x] are not known. *)
From Coq Require Import List Bool String Ascii Arith PArith.
Import ListNotations.
Local Open Scope string_scope.

(** Signature: positional parameters, how many of the last ones have a
    default, [*args], keyword-only parameters (with default?), [**kwargs]. *)
Inductive sig := Sig (pos : list string) (opt : nat) (star : bool) (kwo : list (string * bool)) (dstar : bool).

Definition s_pos (s : sig) := let (p, _, _, _, _) := s in p.
Definition s_opt (s : sig) := let (_, o, _, _, _) := s in o.
Definition s_star (s : sig) := let (_, _, a, _, _) := s in a.
Definition s_kwo (s : sig) := let (_, _, _, k, _) := s in k.
Definition s_dstar (s : sig) := let (_, _, _, _, d) := s in d.

Definition parameters (s : sig) : list string := List.app (s_pos s) (map fst (s_kwo s)).
(** Parameters without a default. *)
Definition required (s : sig) : list string :=
  List.app (firstn (List.length (s_pos s) - s_opt s) (s_pos s))
           (map fst (filter (fun p => negb (snd p)) (s_kwo s))).
(** The first parameter of a method is the object. *)
Definition without_first (s : sig) : sig :=
  let (p, o, a, k, d) := s in Sig (tl p) (Nat.min o (List.length (tl p))) a k d.

(** What a name of a module is bound to: a function, a class (of this module),
    a module of the package, a name imported from a module of the package, or
    anything else. *)
Inductive binding := Func (s : sig) | Class (c : string) | Mod (m : string) | From (m n : string) | Outside.

(** Class: module, name, bases, methods (static?, signature). *)
Inductive class := Cls (m n : string) (bases : list string) (methods : list (string * (bool * sig))).
Definition c_mod (c : class) := let (m, _, _, _) := c in m.
Definition c_name (c : class) := let (_, n, _, _) := c in n.
Definition c_bases (c : class) := let (_, _, b, _) := c in b.
Definition c_methods (c : class) := let (_, _, _, m) := c in m.

(** Callee: a name of the module or of another module, a method of the object,
    a method of the base class (with the class the call is written in). *)
Inductive callee := Plain (n : string) | Of (m n : string) | Own (c n : string) | Super (c n : string).

(** Call: module, function, line, callee, names of the positional arguments
    ("" if not a variable), [*x] given?, keywords with names, [**x] given? *)
Inductive site := Site (m f : string) (line : positive) (c : callee) (pos : list string) (star : bool)
                       (kws : list (string * string)) (dstar : bool).
Definition t_mod (t : site) := let (m, _, _, _, _, _, _, _) := t in m.
Definition t_fun (t : site) := let (_, f, _, _, _, _, _, _) := t in f.
Definition t_line (t : site) := let (_, _, l, _, _, _, _, _) := t in l.
Definition t_callee (t : site) := let (_, _, _, c, _, _, _, _) := t in c.
Definition t_pos (t : site) := let (_, _, _, _, p, _, _, _) := t in p.
Definition t_star (t : site) := let (_, _, _, _, _, s, _, _) := t in s.
Definition t_kws (t : site) := let (_, _, _, _, _, _, k, _) := t in k.
Definition t_dstar (t : site) := let (_, _, _, _, _, _, _, d) := t in d.

(** Use of name [n] of the module bound to [b]. *)
Inductive use := Use_of (m f : string) (line : positive) (b n : string).

Definition mem (x : string) (l : list string) : bool := existsb (String.eqb x) l.

(** ** Binding of arguments

    Python reference, 6.3.4 Calls: the positional arguments fill the first
    slots, more than there are go to [*args] or are an error; each keyword
    argument fills the slot of its name, which must not be filled; other
    keywords go to [**kwargs] or are an error; unfilled slots without default
    are an error.  [None]: TypeError. *)
Fixpoint keywords (params : list string) (dstar : bool) (filled extra : list string) (kws : list string)
  : option (list string) :=
  match kws with
  | [] => Some filled
  | k :: t =>
      if mem k params
      then if mem k filled then None else keywords params dstar (k :: filled) extra t
      else if dstar then if mem k extra then None else keywords params dstar filled (k :: extra) t
      else None
  end.

Definition bind_args (s : sig) (n : nat) (kws : list string) : bool :=
  if (Nat.leb n (List.length (s_pos s)) || s_star s)%bool then
    match keywords (parameters s) (s_dstar s) (firstn n (s_pos s)) [] kws with
    | Some filled => forallb (fun p => mem p filled) (required s)
    | None => false
    end
  else false.

(** ** Finding the callee *)

Section Tables.
  Variable modules : list (string * list (string * binding)).
  Variable classes : list class.

  Definition assoc {A} (x : string) (l : list (string * A)) : option A :=
    match find (fun p => String.eqb x (fst p)) l with Some p => Some (snd p) | None => None end.

  (** The name of a module, imports followed ([fuel]: length of the chain). *)
  Fixpoint look (fuel : nat) (m n : string) : option (string * binding) :=
    match fuel with
    | O => None
    | S k => match assoc m modules with
             | None => None
             | Some l => match assoc n l with
                         | Some (From m2 n2) => look k m2 n2
                         | Some b => Some (m, b)
                         | None => None
                         end
             end
    end.

  Definition find_class (m n : string) : option class :=
    find (fun c => (String.eqb m (c_mod c) && String.eqb n (c_name c))%bool) classes.

  Definition class_named (m n : string) : option class :=
    match look 10 m n with Some (m2, Class c) => find_class m2 c | _ => None end.

  (** The class and its bases, in the order methods are looked up (every class
      of the package has at most one base). *)
  Fixpoint line_of (fuel : nat) (c : class) : list class :=
    match fuel with
    | O => []
    | S k => c :: flat_map (fun b => match class_named (c_mod c) b with Some d => line_of k d | None => [] end)
                           (c_bases c)
    end.
  Definition ancestors (c : class) : list class := line_of 10 c.

  Definition is_class (c d : class) : bool :=
    (String.eqb (c_mod c) (c_mod d) && String.eqb (c_name c) (c_name d))%bool.
  Definition derives (d c : class) : bool := existsb (is_class c) (ancestors d).

  (** Method [n] of an object of class [c], as called: without the object. *)
  Definition method_of (l : list class) (n : string) : option sig :=
    match find (fun c => mem n (map fst (c_methods c))) l with
    | Some c => match assoc n (c_methods c) with
                | Some (true, s) => Some s
                | Some (false, s) => Some (without_first s)
                | None => None
                end
    | None => None
    end.

  (** Calling a class runs its [__init__]; without one it takes no arguments. *)
  Definition constructor (c : class) : sig :=
    match method_of (ancestors c) "__init__" with Some s => s | None => Sig [] 0 false [] false end.

  Definition target (m n : string) : option sig :=
    match look 10 m n with
    | Some (_, Func s) => Some s
    | Some (m2, Class c) => match find_class m2 c with Some d => Some (constructor d) | None => None end
    | _ => None
    end.

  (** All signatures the call may meet, by class of the object: a call
      [self.x(...)] written in class [c] runs on objects of [c] and of every
      class derived from it.  [None]: no such function. *)
  Definition targets (t : site) : list (string * option sig) :=
    match t_callee t with
    | Plain n => [("", target (t_mod t) n)]
    | Of b n => [("", match look 10 (t_mod t) b with Some (_, Mod m2) => target m2 n | _ => None end)]
    | Own c n =>
        match find_class (t_mod t) c with
        | Some k => map (fun d => (c_name d, method_of (ancestors d) n)) (filter (fun d => derives d k) classes)
        | None => [("", None)]
        end
    | Super c n =>
        match find_class (t_mod t) c with
        | Some k => [("", method_of (tl (ancestors k)) n)]
        | None => [("", None)]
        end
    end.

  Definition use_found (u : use) : bool :=
    let (m, _, _, b, n) := u in
    match look 10 m b with
    | Some (_, Mod m2) => match look 10 m2 n with Some _ => true | None => false end
    | _ => false
    end.
End Tables.

(** ** Solver inputs

    [_create_diff_inputs] (simenv.py 4755-4762) collects the attributes named in
    [_input_arg_names_sorted]; [get_diff] passes them on by position, followed
    by the time step (pipe.py 647, hex_num.py 1316, tes.py 996,
    pipe_branched.py 295, pipe_with_valve.py 403); solved implicitly, the heat
    exchanger passes them to [hexnum_diff_impl] without it
    (precomp_funs.py 3194-3196). *)

(** [l.insert(i, x)]. *)
Definition insert_at (i : nat) (x : string) (l : list string) : list string :=
  List.app (firstn i l) (x :: skipn i l).

(** [[a for a in l if a not in r]]. *)
Definition remove_all (r l : list string) : list string := filter (fun a => negb (mem a r)) l.

(** A name without its leading underscores. *)
Fixpoint bare (s : string) : string :=
  match s with String "_"%char t => bare t | _ => s end.
