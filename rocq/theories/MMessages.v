(** * Texts with placeholders: str.format as used for messages, names and labels

    The package makes its messages, labels and file names with [str.format]
    (721 calls, listed by the generated MSrcMessages.v).  The function is part
    of Python; modelled here from its documentation ("Format String Syntax"):
    "{{" and "}}" are braces, "{name}" and "{name:spec}" are placeholders, a
    name is empty (numbered automatically), a number or a keyword.

    Simplifications: conversions ("!r"), attributes and items ("{0.a}",
    "{0[1]}") and placeholders inside a specification are not used by the
    package; they are treated as failures here.  How a number is written is
    given by an arbitrary function. *)
From Coq Require Import List String Ascii Bool Arith ZArith.
Import ListNotations.
Local Open Scope string_scope.

(** ** Reading a template *)

(** What a template consists of: characters and placeholders. *)
Inductive item : Type :=
| Ch (c : ascii)
| Field (name spec : string).

(** State of the reader: text, after "{", after "}", in a name, in a specification. *)
Inductive mode : Type :=
| Text
| Open
| Close
| Name (n : string)
| Spec (n s : string).

Definition snoc (s : string) (c : ascii) : string := s ++ String c EmptyString.

(** One character. [None]: ValueError. *)
Definition step (m : mode) (c : ascii) : option (mode * list item) :=
  match m with
  | Text => if Ascii.eqb c "{" then Some (Open, [])
            else if Ascii.eqb c "}" then Some (Close, [])
            else Some (Text, [Ch c])
  | Open => if Ascii.eqb c "{" then Some (Text, [Ch c])
            else if Ascii.eqb c "}" then Some (Text, [Field "" ""])
            else if Ascii.eqb c ":" then Some (Spec "" "", [])
            else Some (Name (snoc "" c), [])
  | Close => if Ascii.eqb c "}" then Some (Text, [Ch c]) else None
  | Name n => if Ascii.eqb c "{" then None
              else if Ascii.eqb c "}" then Some (Text, [Field n ""])
              else if Ascii.eqb c ":" then Some (Spec n "", [])
              else Some (Name (snoc n c), [])
  | Spec n s => if Ascii.eqb c "{" then None
                else if Ascii.eqb c "}" then Some (Text, [Field n s])
                else Some (Spec n (snoc s c), [])
  end.

Fixpoint read (m : mode) (s : string) : option (mode * list item) :=
  match s with
  | EmptyString => Some (m, [])
  | String c s' =>
      match step m c with
      | None => None
      | Some (m1, o1) =>
          match read m1 s' with
          | None => None
          | Some (m2, o2) => Some (m2, List.app o1 o2)
          end
      end
  end.

(** The whole template: a brace left open at the end is an error. *)
Definition parse (s : string) : option (list item) :=
  match read Text s with
  | Some (Text, o) => Some o
  | _ => None
  end.

(** ** Filling in the values *)

(** A value: a text, a number, or anything else (a list, a tuple, None, ...)
    with the text it is shown as. *)
Inductive value : Type :=
| VText (s : string)
| VNum (n : Z)
| VOther (s : string).

(** How numbers are written: [numtext n spec]; an arbitrary function. *)
Definition writer := Z -> string -> string.

Definition digit (c : ascii) : option nat :=
  let n := nat_of_ascii c in
  if (48 <=? n)%nat && (n <=? 57)%nat then Some (n - 48)%nat else None.

Fixpoint digits (acc : nat) (s : string) : option nat :=
  match s with
  | EmptyString => Some acc
  | String c s' => match digit c with Some d => digits (10 * acc + d)%nat s' | None => None end
  end.

(** The number a name stands for, if it is one. *)
Definition number (s : string) : option nat :=
  match s with EmptyString => None | _ => digits 0 s end.

(** Specifications of numbers that are used: optional width, optional
    precision after a point, then "f" or "G". *)
Fixpoint after_point (s : string) : bool :=
  match s with
  | EmptyString => false
  | String c EmptyString => Ascii.eqb c "f" || Ascii.eqb c "G"
  | String c s' => match digit c with Some _ => after_point s' | None => false end
  end.

Fixpoint number_spec (s : string) : bool :=
  match s with
  | EmptyString => false
  | String c EmptyString => Ascii.eqb c "f" || Ascii.eqb c "G"
  | String c s' => match digit c with
                   | Some _ => number_spec s'
                   | None => Ascii.eqb c "." && after_point s'
                   end
  end.

(** The text of one value. A specification of a number applied to anything
    else raises ValueError or TypeError. *)
Definition show (W : writer) (v : value) (spec : string) : option string :=
  match v with
  | VNum n => if String.eqb spec "" || number_spec spec then Some (W n spec) else None
  | VText s | VOther s => if String.eqb spec "" then Some s else None
  end.

(** Numbering of the placeholders: not decided yet, automatic (next index), manual. *)
Inductive numbering : Type := Undecided | Auto (k : nat) | Manual.

(** The value a placeholder asks for. [None]: IndexError, KeyError, or
    ValueError for a mixture of the two kinds of numbering. *)
Fixpoint keyword (kws : list (string * value)) (n : string) : option value :=
  match kws with
  | [] => None
  | (k, v) :: r => if String.eqb k n then Some v else keyword r n
  end.

Definition lookup (args : list value) (kws : list (string * value)) (nb : numbering) (n : string) : option (numbering * value) :=
  if String.eqb n "" then
    match nb with
    | Undecided => match nth_error args 0 with Some v => Some (Auto 1, v) | None => None end
    | Auto k => match nth_error args k with Some v => Some (Auto (S k), v) | None => None end
    | Manual => None
    end
  else match number n with
       | Some i =>
           match nb with
           | Auto _ => None
           | _ => match nth_error args i with Some v => Some (Manual, v) | None => None end
           end
       | None => match keyword kws n with Some v => Some (nb, v) | None => None end
       end.

Fixpoint fill (W : writer) (args : list value) (kws : list (string * value)) (nb : numbering) (l : list item) : option string :=
  match l with
  | [] => Some ""
  | Ch c :: r =>
      match fill W args kws nb r with Some t => Some (String c t) | None => None end
  | Field n spec :: r =>
      match lookup args kws nb n with
      | None => None
      | Some (nb', v) =>
          match show W v spec, fill W args kws nb' r with
          | Some a, Some t => Some (a ++ t)
          | _, _ => None
          end
      end
  end.

(** [template.format( *args, **kws)]; [None]: an exception is raised. *)
Definition format (W : writer) (template : string) (args : list value) (kws : list (string * value)) : option string :=
  match parse template with
  | Some l => fill W args kws Undecided l
  | None => None
  end.

(** ** The calls of the package *)

(** Parts of a template: text of the source, text that is known only when the
    program runs (names given by the user and the like), a number written out. *)
Inductive piece : Type :=
| Lit (s : string)
| Hole
| Numb.

(** One call: file, line, whether it is part of an assert or raise statement
    (the text is then only made when an error is reported), number of
    positional arguments, keywords, possible templates. *)
Record site : Type := mkSite {
  file : string; line : positive; late : bool;
  nargs : nat; keys : list string; templates : list (list piece) }.

(** The template of a call: the texts of the holes are taken one after another
    from [h] (for [Hole]) and [k] (for [Numb]). *)
Fixpoint template (p : list piece) (h k : nat -> string) : string :=
  match p with
  | [] => ""
  | Lit s :: r => s ++ template r h k
  | Hole :: r => h O ++ template r (fun i => h (S i)) k
  | Numb :: r => k O ++ template r h (fun i => k (S i))
  end.
