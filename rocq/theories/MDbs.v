(** Loading of the pickled databases: [database_import] (utility_functions.py 541-585) with [which='all'].
    Simplifications: a file system is the list of its files with their contents, in the order of a directory listing; paths hold no
    wildcards and file names are compared with their case; a pickle is read without failure.  With a list in [which], or with
    [path] given for own databases, the function stops at a name without value (C168), so these branches are not modelled here. *)
From Coq Require Import String Ascii List Bool.
Import ListNotations.
Open Scope string_scope.

(** [s.split(c)] (562 and 578, with ['\\'] and ['.']). *)
Fixpoint split (c : ascii) (s : string) : list string :=
  match s with
  | EmptyString => [EmptyString]
  | String a r =>
      if Ascii.eqb a c then EmptyString :: split c r
      else match split c r with
           | h :: t => String a h :: t
           | [] => [String a EmptyString]
           end
  end.
Definition backslash : ascii := "092"%char.
Definition dot : ascii := "."%char.
(** [db_name = file.split('\\')[-1].split('.')[0]] (562 and 578). *)
Definition db_name (file : string) : string := hd EmptyString (split dot (last (split backslash file) EmptyString)).

(** [glob.glob(os.path.join(pth, '*.pkl'))] (558 and 575) on a system whose separator is [sep]: files directly in [pth] whose name
    ends in ".pkl" and is not hidden. *)
Fixpoint strip (p s : string) : option string :=
  match p, s with
  | EmptyString, _ => Some s
  | String a p', String b s' => if Ascii.eqb a b then strip p' s' else None
  | String _ _, EmptyString => None
  end.
Fixpoint has (c : ascii) (s : string) : bool :=
  match s with EmptyString => false | String a r => Ascii.eqb a c || has c r end.
Fixpoint ends (suf s : string) : bool :=
  String.eqb s suf || match s with EmptyString => false | String _ r => ends suf r end.
Definition hidden (s : string) : bool := match s with String a _ => Ascii.eqb a dot | EmptyString => false end.
Definition globbed (sep : ascii) (pth file : string) : bool :=
  match strip (pth ++ String sep EmptyString) file with
  | Some n => ends ".pkl" n && negb (has sep n) && negb (hidden n)
  | None => false
  end.

Section Import.
Context {D : Type}.
Definition fsys := list (string * D).
(** [for file in files: dbs[db_name] = pd.read_pickle(file)] (560-563 and 576-579); a dict as a function to options. *)
Definition upd (dbs : string -> option D) (k : string) (d : D) : string -> option D :=
  fun x => if String.eqb x k then Some d else dbs x.
Definition import_all (sep : ascii) (pth : string) (fs : fsys) : string -> option D :=
  fold_left (fun dbs f => upd dbs (db_name (fst f)) (snd f)) (filter (fun f => globbed sep pth (fst f)) fs) (fun _ => None).
(** The standard databases: [pth = pth + r'\data_tables'] (556), whatever the separator of the system. *)
Definition std_folder (pkg : string) : string := pkg ++ String backslash "data_tables".
Definition std_import (sep : ascii) (pkg : string) (fs : fsys) : string -> option D := import_all sep (std_folder pkg) fs.
End Import.
