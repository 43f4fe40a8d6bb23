(** Model of reading the results of a run back from its result file.

    Code modelled:
    - simenv.py 5446-5492 [_compress_store] (which tables are kept), 4955-4984 (tables added at the end of a run)
    - simenv.py 5619-5665 [return_stored_data]
    - parts/heated_pipe.py 235-238, parts/chp_plant.py 665-673 [_special_return_store]
    - parts/controllers.py 1291-1309 (tables of a predictive controller)
    - _utility/meters.py 104-108, 204-207, 347-361 and likewise for the other kinds of meters (names, [_save_to_disk])
    - utility_functions.py 152-164 [load_failed_results]

    Simplifications: the content of a table is a number that stands for it; the choice of cells and resampling are left
    out (C145, C149); keys are listed in the order of writing (the order only matters where a name is taken twice). *)
From Coq Require Import String Ascii List Arith Bool.
From Verif Require Import MPack.
Import ListNotations.
Open Scope string_scope.

(** Dictionaries and files: names with values; setting a name again replaces its value. *)
Section Dict.
Context {V : Type}.
Fixpoint find (n : string) (d : list (string * V)) : option V :=
  match d with [] => None | (m, v) :: r => if m =? n then Some v else find n r end.
Fixpoint put (n : string) (v : V) (d : list (string * V)) : list (string * V) :=
  match d with
  | [] => [(n, v)]
  | (m, w) :: r => if m =? n then (m, v) :: r else (m, w) :: put n v r
  end.
Definition put_all (l : list (string * V)) (d : list (string * V)) : list (string * V) :=
  fold_left (fun d e => put (fst e) (snd e) d) l d.
End Dict.

(** [s.split('/')] *)
Definition slash : ascii := "/".
Fixpoint split (s : string) : list string :=
  match s with
  | EmptyString => [""]
  | String c r => if (c =? slash)%char then "" :: split r
                  else match split r with h :: t => String c h :: t | [] => [] end
  end.

(** ** The file at the end of a run *)

(** A part: its name, whether its results are kept, the tables it has besides res and dm, and their contents. *)
Record stored := mkStored { s_name : string; s_keep : bool; s_extra : list string; s_data : string -> nat }.
(** parts/heated_pipe.py 208-219, parts/chp_plant.py 600-636 *)
Definition heated_tables : list string := ["heating"].
Definition chp_tables : list string := ["heating"; "Pel"; "Pgas"; "chp_state"].
Definition s_tables (p : stored) : list string := "res" :: "dm" :: s_extra p.

Definition key (n t : string) : string := "/" ++ n ++ "/" ++ t.
Definition part_tables (p : stored) : list (string * nat) := map (fun t => (key (s_name p) t, s_data p t)) (s_tables p).
(** Tables of a predictive controller. *)
Definition ctrl_tables (n : string) : list string :=
  [key n "tes_cap"; key n "tes_soc"; key (n ++ "_opt") "opt_res_longterm"; key (n ++ "_opt") "opt_res_longterm_postproc";
   key (n ++ "_opt") "opt_stats"].
Definition run_file (parts : list stored) (vecs : nat) (ctrls : list (string * (string -> nat))) : list (string * nat) :=
  put_all (flat_map (fun c => map (fun k => (k, snd c k)) (ctrl_tables (fst c))) ctrls)
    (put "/sim_vecs" vecs (put_all (flat_map part_tables (filter s_keep parts)) [])).

(** Meters are added after the run: kind, name, content.  A name is refused if it is taken by a meter of the same kind. *)
Record meter := mkMeter { m_kind : nat; m_name : string; m_data : nat }.
Fixpoint meters_accepted (l : list meter) : bool :=
  match l with
  | [] => true
  | m :: r => negb (existsb (fun n => (m_kind n =? m_kind m)%nat && (m_name n =? m_name m)) r) && meters_accepted r
  end.
Definition meter_file (l : list meter) (f : list (string * nat)) : list (string * nat) :=
  put_all (map (fun m => (key "meters" (m_name m), m_data m)) l) f.

(** ** Reading back *)
Inductive value := Tables (l : list (string * nat)) | Vectors (n : nat) | MeterTables (l : list (string * nat)).

(** 667-673: all tables of the part, or none of the additional ones if one is missing (KeyError, caught at 5650). *)
Fixpoint extra_tables (n : string) (ts : list string) (f : list (string * nat)) : option (list (string * nat)) :=
  match ts with
  | [] => Some []
  | t :: ts => match find (key n t) f, extra_tables n ts f with
               | Some v, Some l => Some ((t, v) :: l) | _, _ => None end
  end.
Definition read_part (f : list (string * nat)) (p : stored) (d : list (string * value)) : list (string * value) :=
  match find (key (s_name p) "res") f, find (key (s_name p) "dm") f with
  | Some r, Some m =>
      let base := [("res", r); ("dm", m)] in
      put (s_name p) (Tables (base ++ match extra_tables (s_name p) (s_extra p) f with Some l => l | None => [] end)) d
  | _, _ => d
  end%list.
(** 5654-5659; [None]: IndexError. *)
Fixpoint read_meters (f : list (string * nat)) (acc : list (string * nat)) : option (list (string * nat)) :=
  match f with
  | [] => Some acc
  | (k, v) :: r => if contains "meters" k
                   then match nth_error (split k) 2 with Some n => read_meters r (put n v acc) | None => None end
                   else read_meters r acc
  end.
(** [None]: KeyError or IndexError. *)
Definition return_stored (parts : list stored) (f : list (string * nat)) : option (list (string * value)) :=
  let d := fold_left (fun d p => read_part f p d) parts [] in
  match find "/sim_vecs" f with
  | None => None
  | Some v =>
      let d := put "sim_vecs" (Vectors v) d in
      match read_meters f [] with
      | None => None
      | Some [] => Some d
      | Some l => Some (put "meters" (MeterTables l) d)
      end
  end.

(** utility_functions.py 152-164; [None]: ValueError, a key that does not have three sections. *)
Fixpoint load_failed (f : list (string * nat)) (d : list (string * list (string * nat)))
  : option (list (string * list (string * nat))) :=
  match f with
  | [] => Some d
  | (k, v) :: r => match split k with
                   | [_; a; b] => load_failed r (put a (put b v match find a d with Some l => l | None => [] end) d)
                   | _ => None
                   end
  end.
