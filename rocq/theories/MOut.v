(** Model of the removal of outliers from measured series.

    Code: /repo/multisim/utility_functions.py [remove_outliers_std] (867-906),
    [remove_outliers_roll] (909-974), [remove_outliers_mad] (1205-1268).

    Simplifications: real arithmetic; a series is the list of its values and the list of its
    index values (numbers, e.g. seconds); the input itself has no NaN; DataFrames are treated
    column by column and left out; the functions of pandas and numpy which are called ([mean],
    [std], [median], [rolling], [interpolate], masks) are modelled by what they are documented to
    do.  [None] is NaN. *)
From Coq Require Import Reals List Bool Arith.
Import ListNotations.
Open Scope R_scope.

(** What the caller hands over: a pandas Series or a 1-D numpy array. *)
Inductive container := Series | Array.
(** Accepted values of [fill_value] (881-883). *)
Inductive fill := Interpolate | FillNan | Remove | Const (c : R).
(** Result: the returned values or an exception. *)
Inductive outcome := Returned (l : list (option R)) | Raised.
(** Result of a call and the values the caller's object holds afterwards. *)
Record call := { result : outcome; callers : list (option R) }.

Definition lsum (l : list R) : R := fold_right Rplus 0 l.
Definition lmean (l : list R) : R := lsum l / INR (length l).
(** [data.std()]: pandas divides by n - 1, numpy by n; 0/0 is NaN. *)
Definition ddof (c : container) : nat := match c with Series => 1%nat | Array => 0%nat end.
Definition ssd (l : list R) : R := lsum (map (fun x => (x - lmean l) * (x - lmean l)) l).
Definition lstd (d : nat) (l : list R) : option R :=
  if (length l <=? d)%nat then None else Some (sqrt (ssd l / INR (length l - d))).

(** [data.median()]. *)
Fixpoint insert (x : R) (l : list R) : list R :=
  match l with
  | [] => [x]
  | y :: t => if Rle_dec x y then x :: y :: t else y :: insert x t
  end.
Fixpoint isort (l : list R) : list R := match l with [] => [] | x :: t => insert x (isort t) end.
Definition median (l : list R) : R :=
  let s := isort l in let n := length l in
  if Nat.even n then (nth (n / 2 - 1) s 0 + nth (n / 2) s 0) / 2 else nth (n / 2) s 0.

(** ** Which values are outliers ([true] = outlier) *)
(** 889, 892, 902, 904: [~(np.abs(data - data.mean()) <= stdevs * data.std())]; a comparison with
    NaN is false. *)
Definition out_std (c : container) (k : R) (l : list R) (x : R) : bool :=
  match lstd (ddof c) l with
  | None => true
  | Some s => if Rle_dec (Rabs (x - lmean l)) (k * s) then false else true
  end.
(** 1235-1239 *)
Definition mad (l : list R) : R := median (map (fun x => Rabs (x - median l)) l).
Definition out_mad (threshold dist_const : R) (l : list R) (x : R) : bool :=
  if Rlt_dec (threshold * dist_const * mad l) (Rabs (x - median l)) then true else false.

(** 932-937: centred rolling median (row [i] belongs to the window which ends at row
    [i + (w - 1) / 2]), gaps filled backwards, then forwards. *)
Definition roll_median (w : nat) (l : list R) (i : nat) : option R :=
  let e := (i + (w - 1) / 2)%nat in
  if ((w <=? e + 1) && (e <? length l))%nat then Some (median (firstn w (skipn (e + 1 - w) l)))
  else None.
Fixpoint first_some (f : nat -> option R) (i fuel : nat) : option R :=
  match fuel with
  | O => None
  | S k => match f i with Some v => Some v | None => first_some f (S i) k end
  end.
Fixpoint last_some (f : nat -> option R) (i : nat) : option R :=
  match f i with
  | Some v => Some v
  | None => match i with O => None | S j => last_some f j end
  end.
Definition roll_filled (w : nat) (l : list R) (i : nat) : option R :=
  match first_some (roll_median w l) i (length l - i) with
  | Some v => Some v
  | None => last_some (roll_median w l) i
  end.
(** 939: row-wise difference to the median; 940: their standard deviation, NaN skipped (the
    filled medians are all numbers or all NaN); 941. *)
Definition roll_diff (w : nat) (l : list R) (i : nat) : option R :=
  match roll_filled w l i with None => None | Some m => Some (Rabs (nth i l 0 - m)) end.
Definition somes (l : list (option R)) : list R :=
  flat_map (fun o => match o with Some v => [v] | None => [] end) l.
Definition roll_diffs (w : nat) (l : list R) : list (option R) :=
  map (roll_diff w l) (seq 0 (length l)).
Definition out_roll (w : nat) (k : R) (l : list R) (i : nat) : bool :=
  match roll_diff w l i, lstd 1 (somes (roll_diffs w l)) with
  | Some d, Some s => if Rlt_dec (s * k) d then true else false
  | _, _ => false
  end.

(** ** Filling *)
(** Values with the outliers replaced by [v]. *)
Definition marked (v : option R) (out : list bool) (l : list R) : list (option R) :=
  map (fun p : bool * R => if fst p then v else Some (snd p)) (combine out l).
Definition dropped (out : list bool) (l : list R) : list (option R) :=
  flat_map (fun p : bool * R => if fst p then [] else [Some (snd p)]) (combine out l).

(** [data.interpolate(method='index')]: linear in the index between the valid neighbours; behind
    the last valid value it is repeated ([limit_direction='forward'] is the default), values
    before the first valid one stay NaN; with [limit_area='inside'] (947, 955) both ends stay
    NaN. *)
Fixpoint prev_ok (c : list (option R)) (i : nat) : option (nat * R) :=
  match nth i c None with
  | Some v => Some (i, v)
  | None => match i with O => None | S j => prev_ok c j end
  end.
Fixpoint next_ok (c : list (option R)) (i fuel : nat) : option (nat * R) :=
  match fuel with
  | O => None
  | S k => match nth i c None with Some v => Some (i, v) | None => next_ok c (S i) k end
  end.
Definition interp_at (inside : bool) (ts : list R) (c : list (option R)) (i : nat) : option R :=
  match prev_ok c i, next_ok c i (length c - i) with
  | Some (p, a), Some (q, b) =>
      if (p =? q)%nat then Some a
      else Some (a + (b - a) * (nth i ts 0 - nth p ts 0) / (nth q ts 0 - nth p ts 0))
  | Some (_, a), None => if inside then None else Some a
  | None, _ => None
  end.
Definition interpolate (inside : bool) (ts : list R) (c : list (option R)) : list (option R) :=
  map (interp_at inside ts c) (seq 0 (length c)).

(** ** The three functions *)
Definition mask_std (c : container) (k : R) (l : list R) : list bool := map (out_std c k l) l.
Definition mask_mad (th dc : R) (l : list R) : list bool := map (out_mad th dc l) l.
Definition mask_roll (w : nat) (k : R) (l : list R) : list bool :=
  map (out_roll w k l) (seq 0 (length l)).

(** [remove_outliers_std] 867-906: writes into the caller's object except for 'remove'; a numpy
    array has no [interpolate]. *)
Definition remove_std (c : container) (k : R) (f : fill) (ts l : list R) : call :=
  let out := mask_std c k l in
  match f with
  | Interpolate =>
      let m := marked None out l in
      {| result := match c with Series => Returned (interpolate false ts m) | Array => Raised end;
         callers := m |}
  | FillNan => let m := marked None out l in {| result := Returned m; callers := m |}
  | Remove => {| result := Returned (dropped out l); callers := map Some l |}
  | Const v => let m := marked (Some v) out l in {| result := Returned m; callers := m |}
  end.

(** [remove_outliers_roll] 909-974: works on a copy (918); only pandas objects (920). *)
Definition remove_roll (c : container) (w : nat) (k : R) (f : fill) (ts l : list R) : call :=
  {| result :=
       match c with
       | Array => Raised
       | Series =>
           let out := mask_roll w k l in
           Returned (match f with
                     | Interpolate => interpolate true ts (marked None out l)
                     | FillNan => marked None out l
                     | Remove => dropped out l
                     | Const v => marked (Some v) out l
                     end)
       end;
     callers := map Some l |}.

(** [remove_outliers_mad] 1205-1268: a Series is copied (1232); an array is wrapped into a Series
    (1229), which shares the memory with the array, with row numbers as index; 1251 writes NaN. *)
Definition mad_index (c : container) (ts l : list R) : list R :=
  match c with Series => ts | Array => map INR (seq 0 (length l)) end.
Definition remove_mad (c : container) (th dc : R) (f : fill) (ts l : list R) : call :=
  let out := mask_mad th dc l in
  {| result :=
       Returned (match f with
                 | Interpolate => interpolate false (mad_index c ts l) (marked None out l)
                 | FillNan => marked None out l
                 | Remove => dropped out l
                 | Const v => marked (Some v) out l
                 end);
     callers :=
       match c with
       | Series => map Some l
       | Array => match f with Const v => marked (Some v) out l | _ => marked None out l end
       end |}.
