(** Model of the packaging and loading of result files.

    Code modelled (/repo/multisim/utility_functions.py):
    - 167-285 [package_results]
    - 46-101 [load_sim_results] (choice of tables and the form of the result)
    - 104-149 [load_results_by_name]

    Simplifications: file and directory names are strings, the content of a file is a number that stands for it.
    Directories are lists of files in the (arbitrary) order in which they are listed.  The path itself contains none of
    the texts that are searched for, names of result files contain [.h5] only as their ending, search patterns contain no
    wildcards.  Other processes do not touch the files. *)
From Coq Require Import String Ascii List Arith Bool.
Import ListNotations.
Open Scope string_scope.

Notation files := (list (string * nat)) (only parsing).

(** ** Texts *)
Fixpoint drop (n : nat) (s : string) : string :=
  match n, s with S k, String _ r => drop k r | _, _ => s end.
(** First place of [t] in [s]: what is before and after it. *)
Fixpoint cut (t s : string) : option (string * string) :=
  if prefix t s then Some ("", drop (String.length t) s)
  else match s with
       | EmptyString => None
       | String c r => match cut t r with Some (a, b) => Some (String c a, b) | None => None end
       end.
Definition contains (t s : string) : bool := match cut t s with Some _ => true | None => false end.
(** [s.split(t)[1]]; [None]: IndexError, or ValueError for an empty [t]. *)
Definition second (t s : string) : option string :=
  match t with
  | EmptyString => None
  | _ => match cut t s with
         | Some (_, r) => match cut t r with Some (a, _) => Some a | None => Some r end
         | None => None
         end
  end.
(** [s.split(t)[0]] *)
Definition first (t s : string) : string := match cut t s with Some (a, _) => a | None => s end.
(** The text before the ending [e], if [s] has this ending. *)
Fixpoint stem (e s : string) : option string :=
  if s =? e then Some ""
  else match s with
       | EmptyString => None
       | String c r => match stem e r with Some a => Some (String c a) | None => None end
       end.
(** [glob('*feature*ending')] *)
Definition matches (feature e s : string) : bool :=
  match stem e s with Some a => contains feature a | None => false end.

(** ** Files *)
Fixpoint take (n : string) (l : files) : option (nat * files) :=
  match l with
  | [] => None
  | (m, c) :: r => if m =? n then Some (c, r)
                   else match take n r with Some (d, r') => Some (d, (m, c) :: r') | None => None end
  end.
(** Writing over a file of the same name. *)
Fixpoint write (n : string) (c : nat) (l : files) : files :=
  match l with
  | [] => [(n, c)]
  | (m, d) :: r => if m =? n then (m, c) :: r else (m, d) :: write n c r
  end.
Definition names (l : files) : list string := map fst l.
Definition mem (n : string) (l : list string) : bool := existsb (String.eqb n) l.

Record disk := mkDisk { src : files; dst : list (string * files) }.
(** Result of the loop: the disk, unresolved and pending simulations. *)
Record state := mkState { dk : disk; unresolved : list string; pending : list string }.

(** [shutil.move] into the directory that was made last; [false]: no such file. *)
Definition move (n n' : string) (d : disk) : disk * bool :=
  match take n (src d), dst d with
  | Some (c, s), (dir, fs) :: r => (mkDisk s ((dir, write n' c fs) :: r), true)
  | _, _ => (d, false)
  end.

(** 199-213: the log file that belongs to the results, the text all new names start with, and the new folder;
    [None]: IndexError. *)
Definition log_of (feature : string) (logs : list string) (base : string) : option (option string) :=
  match second feature base with
  | Some rest => match filter (contains (feature ++ rest)) logs with [l] => Some (Some l) | _ => Some None end
  | None => None
  end.
Definition new_prefix (nd : nat) (log : option string) (base : string) : string :=
  match log with Some l => first "." l | None => drop nd base end.
Definition folder (feature : string) (nd : nat) (log : option string) (base : string) : option string :=
  match second feature (new_prefix nd log base) with Some rest => Some (feature ++ rest) | None => None end.

(** 243-271: the files are moved one after the other; only the boundary conditions may be missing. *)
Definition move_all (log : option string) (p base : string) (d : disk) : disk * bool :=
  let '(d1, b1) := move (base ++ ".h5") (p ++ ".h5") d in
  if b1 then
    let '(d2, b2) := move (base ++ "_REPORT.csv") (p ++ "_REPORT.csv") d1 in
    if b2 then
      let '(d3, _) := move (base ++ "_BCs.csv") (p ++ "_BCs.csv") d2 in
      match log with
      | Some l => move l l d3
      | None => (d3, true)
      end
    else (d2, false)
  else (d1, false).

(** 188-271: one result file; [false]: an exception ends the packaging. *)
Definition one (feature : string) (nd : nat) (reports logs : list string) (s : state) (base : string) : state * bool :=
  match log_of feature logs base with
  | None => (s, false)
  | Some log =>
      match folder feature nd log base with
      | None => (s, false)
      | Some dir =>
          if negb (mem (base ++ "_REPORT.csv") reports)
          then (mkState (dk s) (unresolved s ++ [base]) (pending s), true)
          else if mem (base ++ ".h5_tmp") (names (src (dk s)))
          then (mkState (dk s) (unresolved s) (pending s ++ [base]), true)
          else if mem dir (map fst (dst (dk s))) then (s, true)
          else let '(d, ok) := move_all log (new_prefix nd log base) base
                                 (mkDisk (src (dk s)) ((dir, []) :: dst (dk s))) in
               (mkState d (unresolved s) (pending s), ok)
      end
  end.
Fixpoint all (feature : string) (nd : nat) (reports logs : list string) (s : state) (l : list string) : state * bool :=
  match l with
  | [] => (s, true)
  | b :: r => let '(s', ok) := one feature nd reports logs s b in
              if ok then all feature nd reports logs s' r else (s', false)
  end.
(** 180-186: what is found at the start: bases of the result files, reports, logs. *)
Definition bases (feature : string) (l : files) : list string :=
  flat_map (fun n => match stem ".h5" n with Some b => if contains feature b then [b] else [] | None => [] end) (names l).
Definition reports_of (feature : string) (l : files) : list string := filter (matches feature "_REPORT.csv") (names l).
Definition logs_of (feature : string) (l : files) : list string := filter (matches feature ".log") (names l).
Definition package (feature : string) (nd : nat) (d : disk) : state * bool :=
  all feature nd (reports_of feature (src d)) (logs_of feature (src d)) (mkState d [] []) (bases feature (src d)).
(** 272-285: the numbers printed, and what is returned as ['pending']: the first element of the list made of the pending
    simulations found in the loop followed by the list of temporary files, i.e. a path or a list. *)
Definition temps (feature : string) (l : files) : list string := filter (matches feature ".h5_tmp") (names l).
Definition pending_result (feature : string) (s : state) : string + list string :=
  match pending s with b :: _ => inl b | [] => inr (temps feature (src (dk s))) end.
Definition printed (feature : string) (d : disk) (s : state) : nat * nat * nat :=
  (List.length (bases feature (src d)) - List.length (unresolved s), List.length (unresolved s),
   match pending_result feature s with inl b => String.length b | inr l => List.length l end).

(** ** Loading *)
Definition is_digit (c : ascii) : bool := ((48 <=? nat_of_ascii c) && (nat_of_ascii c <=? 57))%nat.
Fixpoint number_from (acc : nat) (s : string) : nat :=
  match s with
  | String c r => if is_digit c then number_from (10 * acc + (nat_of_ascii c - 48)) r else acc
  | EmptyString => acc
  end.
(** [int(re.findall(r'\d+', s)[0])]; [None]: IndexError. *)
Fixpoint number (s : string) : option nat :=
  match s with
  | EmptyString => None
  | String c r => if is_digit c then Some (number_from 0 s) else number r
  end.
(** All entries must have numbers, 131-133. *)
Fixpoint select (nums : list nat) (dirs : list (string * files)) : option (list (nat * files)) :=
  match dirs with
  | [] => Some []
  | (d, fs) :: r =>
      match number d, select nums r with
      | Some n, Some l => Some (if existsb (Nat.eqb n) nums then (n, fs) :: l else l)
      | _, _ => None
      end
  end.
(** [glob('*.h5')[0]] *)
Definition result_file (fs : files) : option nat :=
  match filter (fun f => match stem ".h5" (fst f) with Some _ => true | None => false end) fs with
  | f :: _ => Some (snd f)
  | [] => None
  end.
Fixpoint set_key {V} (n : nat) (v : V) (d : list (nat * V)) : list (nat * V) :=
  match d with
  | [] => [(n, v)]
  | (m, w) :: r => if m =? n then (m, v) :: r else (m, w) :: set_key n v r
  end%nat.
Fixpoint get_key {V} (n : nat) (d : list (nat * V)) : option V :=
  match d with [] => None | (m, w) :: r => if m =? n then Some w else get_key n r end%nat.
Fixpoint load_all (l : list (nat * files)) (acc : list (nat * nat)) : option (list (nat * nat)) :=
  match l with
  | [] => Some acc
  | (n, fs) :: r => match result_file fs with Some c => load_all r (set_key n c acc) | None => None end
  end.
(** [load_results_by_name] on a directory with sub-directories only; [None]: an exception.  [set_numbers=None] leaves
    [_sn_sdirs] undefined. *)
Definition load_by_name (identifier : string) (nums : option (list nat)) (dirs : list (string * files))
  : option (list (nat * nat)) :=
  if existsb (fun d => contains identifier (fst d)) dirs then
    match nums with
    | None => None
    | Some ns =>
        match select ns dirs with
        | Some (x :: l) => load_all (x :: l) []
        | _ => None
        end
    end
  else None.

(** The tables of a result file: those at its root and those in groups. *)
Record h5 := mkH5 { root : list (string * nat); groups : list (string * list (string * nat)) }.
(** 52-60 *)
Definition clean_key (k : string) : string := match k with String "/" r => r | _ => k end.
(** 66-83 for [keys]: [None] means all.  Keys of groups are [group/table]; [None]: an exception (no table at the root,
    or no table found). *)
Definition wanted (keys : option (list string)) (k : string) : bool :=
  match keys with None => true | Some l => mem k (map clean_key l) end.
Definition load_tables (keys : option (list string)) (f : h5)
  : option (option (string * nat) * list (string * list (string * nat))) :=
  match root f with
  | [] => None
  | t :: _ =>
      let gs := map (fun g => (fst g, filter (fun lv => wanted keys (fst g ++ "/" ++ fst lv)) (snd g))) (groups f) in
      let gs := filter (fun g => negb (List.length (snd g) =? 0)%nat) gs in
      let r := if wanted keys (fst t) then Some t else None in
      match r, gs with None, [] => None | _, _ => Some (r, gs) end
  end.
