(** Model of the condensing heat exchanger (regression of the outlet temperatures).

    Code: /repo/multisim/precomp_funs.py [make_poly_transf_combs_for_nb] (6030-6062),
    [extract_pca_results] (6065-6073), [transform_to_poly_nb], [transform_pca_nb],
    [poly_tranfs_pred] (6077-6097), [quad_get_b] (5712-5714), [condensing_hex_quad_poly]
    (5718-5783), [condensing_hex_solve] (2820-2992); /repo/multisim/parts/hex_condensing_polynome.py
    (scaling and ranges 72-159, [_check_results] 564-578).

    Simplifications: real numbers; the inlet temperatures are given (the code copies them from the
    connected ports 0 and 2 first); one sample per call, as in the code; a raised exception is
    [None].  [quad_get_c] (5706-5708) is left out: its result is assigned to [c] at the end of the
    only pass of the loop and never read, and the slopes [dy] are only used there. *)
From Coq Require Import Reals List ZArith Bool Arith.
From Verif Require Import MWater MPorts.
Import ListNotations.
Open Scope R_scope.

(** * Regression *)

(** The fitted pipeline: combinations of input features (one per monomial), mean and components
    of the principal component analysis, intercepts and coefficients of the linear model (one
    row per output: water outlet, flue gas outlet). *)
Record reg := { rg_combos : list (list nat); rg_mean : list R; rg_comps : list (list R);
                rg_icpt : list R; rg_coef : list (list R) }.

(** A row of [int_cmb_idx] (6050-6061): the combination, filled up with -99.  A combination
    longer than the row cannot be stored. *)
Definition pad_row (w : nat) (c : list nat) : option (list Z) :=
  if (length c <=? w)%nat then Some (map Z.of_nat c ++ repeat (-99)%Z (w - length c)) else None.

Fixpoint all_some {A} (l : list (option A)) : option (list A) :=
  match l with
  | [] => Some []
  | None :: _ => None
  | Some x :: l => match all_some l with Some r => Some (x :: r) | None => None end
  end.

(** [make_poly_transf_combs_for_nb] 6043-6062: index array with the width of the last
    combination, and the number of variables of each combination. *)
Definition make_combs (cs : list (list nat)) : option (list (list Z) * list nat) :=
  match cs with
  | [] => None
  | _ => match all_some (map (pad_row (length (last cs []))) cs) with
         | Some rows => Some (rows, map (@length nat) cs)
         | None => None
         end
  end.

(** Indexing with an integer array element: negative indices count from the end. *)
Definition at_idx (X : list R) (z : Z) : option R :=
  if (z <? 0)%Z
  then if (z + Z.of_nat (length X) <? 0)%Z then None
       else nth_error X (Z.to_nat (z + Z.of_nat (length X)))
  else nth_error X (Z.to_nat z).

Fixpoint prod (l : list R) : R := match l with [] => 1 | x :: l => x * prod l end.

(** [transform_to_poly_nb] 6077-6085. *)
Definition to_poly (rows : list (list Z)) (ns : list nat) (X : list R) : option (list R) :=
  all_some (map (fun rn => match all_some (map (at_idx X) (firstn (snd rn) (fst rn))) with
                           | Some vs => Some (1 * prod vs)
                           | None => None
                           end) (combine rows ns)).

(** Inner product of two vectors. *)
Fixpoint dot (u v : list R) : R :=
  match u, v with a :: u, b :: v => a * b + dot u v | _, _ => 0 end.

Fixpoint vsub (u v : list R) : list R :=
  match u, v with a :: u, b :: v => (a - b) :: vsub u v | _, _ => [] end.

(** [transform_pca_nb] 6089-6091, [poly_tranfs_pred] 6095-6097: one entry per output. *)
Definition to_pca (XP mean : list R) (comps : list (list R)) : list R :=
  map (dot (vsub XP mean)) comps.
Definition lin_pred (PC icpt : list R) (coef : list (list R)) : list R :=
  map (fun ic => fst ic + dot PC (snd ic)) (combine icpt coef).

(** Transformation and prediction (2944-2950): water and flue gas outlet temperature. *)
Definition predict (r : reg) (X : list R) : option (R * R) :=
  match make_combs (rg_combos r) with
  | None => None
  | Some (rows, ns) =>
      match to_poly rows ns X with
      | None => None
      | Some XP => match lin_pred (to_pca XP (rg_mean r) (rg_comps r)) (rg_icpt r) (rg_coef r) with
                   | [w; g] => Some (w, g)
                   | _ => None
                   end
      end
  end.

(** * Low water flows *)
(** Threshold (2940, 2966). *)
Definition thresh : R := 1 / 10.

(** One output of [condensing_hex_quad_poly] (5776-5783): [a] is the prediction at the threshold,
    [y0] the flue gas inlet temperature (for both outputs). *)
Definition quad (a y0 dm : R) : R := a + (y0 - a) / thresh ^ 2 * (dm - thresh) ^ 2.

Definition quad_poly (r : reg) (Tw Tg dm dv : R) : option (R * R) :=
  match predict r [Tw; Tg; thresh; dv] with
  | Some (aw, ag) => Some (quad aw Tg dm, quad ag Tg dm)
  | None => None
  end.

(** * The exchanger *)
(** Flow scaling and ranges (hex_condensing_polynome.py 72-159). *)
Record cpar := { cp_reg : reg; cp_sw : R; cp_sg : R;
                 cp_wlo : R; cp_whi : R; cp_glo : R; cp_ghi : R }.

(** Checks of the constructor, with [max_gas] in Nm3/h and [max_water] in kg/s per Nm3/h. *)
Definition make_cpar (r : reg) (max_gas max_water wlo whi glo ghi : R) : option cpar :=
  if Rlt_dec 0 max_gas then if Rlt_dec 0 max_water then
  if Rle_dec 0 glo then if Rle_dec glo ghi then
  if Rle_dec 0 wlo then if Rle_dec wlo whi then
    Some {| cp_reg := r; cp_sw := max_water * max_gas; cp_sg := max_gas / 3600;
            cp_wlo := wlo; cp_whi := whi; cp_glo := glo; cp_ghi := ghi |}
  else None else None else None else None else None else None.

(** Rounding to zero or the lower bound (2910-2915, 2926-2929). *)
Definition low (lo x : R) : R := IZR (rnd (x / lo)) * lo.

(** Water flow through the exchanger and the bypassed flow, if any (2909-2925). *)
Definition water_flow (p : cpar) (x : R) : R * option R :=
  if Req_EM_T (cp_wlo p) 0
  then if Rlt_dec (cp_whi p) x then (cp_whi p, Some (x - cp_whi p)) else (x, None)
  else if Rlt_dec x (cp_wlo p) then (low (cp_wlo p) x, None)
  else if Rlt_dec (cp_whi p) x then (cp_whi p, Some (x - cp_whi p)) else (x, None).

(** Flue gas flow (2926-2936); [None] when it exceeds the range. *)
Definition gas_flow (p : cpar) (x : R) : option R :=
  if Req_EM_T (cp_glo p) 0
  then if Rlt_dec (cp_ghi p) x then None else Some x
  else if Rlt_dec x (cp_glo p) then Some (low (cp_glo p) x)
  else if Rlt_dec (cp_ghi p) x then None else Some x.

(** Outlet temperatures before mixing with the bypass (2938-2976). *)
Definition outlets (r : reg) (Tw Tg dm dv : R) : option (R * R) :=
  if Req_EM_T dm 0 then Some (Tw, Tg)
  else if Req_EM_T dv 0 then Some (Tw, Tg)
  else if Rlt_dec thresh dm then predict r [Tw; Tg; dm; dv]
  else quad_poly r Tw Tg dm dv.

(** Mixing with the bypass (2978-2989). *)
Definition mix_bypass (Tw Tx ex through : R) : R :=
  let b := cp_water Tw * ex in
  let h := cp_water Tx * through in
  (b * Tw + h * Tx) / (b + h).

(** [condensing_hex_solve]: water and flue gas outlet temperatures; the inlets [Tw] and [Tg] are
    stored unchanged beside them. *)
Definition cond_solve (p : cpar) (Tw Tg dmw dvg : R) : option (R * R) :=
  let (dm, byp) := water_flow p (dmw / cp_sw p) in
  match gas_flow p (dvg / cp_sg p) with
  | None => None
  | Some dv =>
      match outlets (cp_reg p) Tw Tg dm dv with
      | None => None
      | Some (w, g) =>
          Some (match byp with Some ex => mix_bypass Tw w ex (cp_whi p) | None => w end, g)
      end
  end.

(** One stored result: inlets, outlets and flows. *)
Record crow := { cr_win : R; cr_wout : R; cr_gin : R; cr_gout : R; cr_dm : R; cr_dv : R }.

(** Steps of a run: every step stores its temperatures and flows (2991-2992). *)
Fixpoint cond_run (p : cpar) (ins : list (R * R * R * R)) : option (list crow) :=
  match ins with
  | [] => Some []
  | (Tw, Tg, dmw, dvg) :: ins =>
      match cond_solve p Tw Tg dmw dvg, cond_run p ins with
      | Some (w, g), Some rs =>
          Some ({| cr_win := Tw; cr_wout := w; cr_gin := Tg; cr_gout := g;
                   cr_dm := dmw; cr_dv := dvg |} :: rs)
      | _, _ => None
      end
  end.

(** [_check_results]: temperatures strictly between 0 and 150, flows not negative, scaled flue
    gas flows strictly below the upper end of the range. *)
Definition check_results (p : cpar) (rs : list crow) : Prop :=
  Forall (fun r => (0 < cr_win r < 150 /\ 0 < cr_wout r < 150) /\
                   (0 < cr_gin r < 150 /\ 0 < cr_gout r < 150) /\
                   0 <= cr_dm r /\ 0 <= cr_dv r /\ cr_dv r / cp_sg p < cp_ghi p) rs.
