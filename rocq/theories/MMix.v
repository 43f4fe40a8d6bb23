(** Model of the parts without own heat capacity: three-way connector, three-way valve,
    pump and plate heat exchanger.

    Code modelled (multisim/precomp_funs.py): [solve_connector_3w] 3274-3347, [solve_mix]
    3593-3627, [solve_split] 3636-3645, [solve_pump] 3649-3661 with [_get_p_arr_pump]
    3562-3572, [solve_platehex] 3358-3558 with [phex_alpha_i_wll_sep] 4516-4597,
    [get_Re_water] 4147, [UA_fld_wll_plate] 5137-5157, [series_circuit_UA] 5296-5319;
    parts/mixingvalve.py 628-674 and parts/pump.py 443-470 (which of them is called).

    Simplifications: exact reals.  Indexing an array out of bounds and assigning an array of
    the wrong size through a boolean mask are errors ([None]).  The copies to the result
    arrays [res], [res_dm] (rows of which are the returned values) are left out. *)
From Coq Require Import Reals List Bool Arith.
From Verif Require Import MWater.
Import ListNotations.
Local Open Scope R_scope.

(** [out[i] = ports_all[port_link_idx[i]]], 77-83. *)
Fixpoint gather (ports : list R) (link : list nat) : option (list R) :=
  match link with
  | [] => Some []
  | i :: r => match nth_error ports i, gather ports r with
              | Some v, Some l => Some (v :: l)
              | _, _ => None
              end
  end.

(** Three-way parts have the port order A, B, C (AB). *)
Record tri (X : Type) := mkTri { pA : X; pB : X; pC : X }.
Arguments mkTri {X}. Arguments pA {X}. Arguments pB {X}. Arguments pC {X}.
Definition tmap2 {X Y Z} (f : X -> Y -> Z) (a : tri X) (b : tri Y) : tri Z :=
  mkTri (f (pA a) (pA b)) (f (pB a) (pB b)) (f (pC a) (pC b)).
Definition tmap {X Y} (f : X -> Y) (a : tri X) : tri Y :=
  mkTri (f (pA a)) (f (pB a)) (f (pC a)).

(** Comparison with zero, boolean masks. *)
Definition gt0 (x : R) : bool := if Rlt_dec 0 x then true else false.
Definition lt0 (x : R) : bool := if Rlt_dec x 0 then true else false.
Definition eq0 (x : R) : bool := if Req_EM_T x 0 then true else false.
Definition count (m : tri bool) : nat :=
  (Nat.b2n (pA m) + Nat.b2n (pB m) + Nat.b2n (pC m))%nat.
(** [a[mask]] *)
Definition sel (m : tri bool) (a : tri R) : list R :=
  (if pA m then [pA a] else []) ++ (if pB m then [pB a] else [])
  ++ (if pC m then [pC a] else []).
(** [a[mask].sum()] *)
Definition msum (m : tri bool) (a : tri R) : R := fold_right Rplus 0 (sel m a).
(** [a[mask] = v] for one value [v]. *)
Definition mset (m : tri bool) (v : R) (a : tri R) : tri R :=
  tmap2 (fun (b : bool) x => if b then v else x) m a.
(** [a[mask] = a[mask2]] where [mask2] selects one element, or [mask] none. *)
Definition mcopy (m m2 : tri bool) (a : tri R) : option (tri R) :=
  match sel m2 a with
  | [v] => Some (mset m v a)
  | _ => if (count m =? 0)%nat then Some a else None
  end.

(** [solve_connector_3w], 3290-3345, on the connected temperatures [T] and own massflows [dm]
    (positive: into the connector). *)
Definition connector (T dm : tri R) : option (tri R) :=
  let cp := tmap cp_water T in
  let i := tmap gt0 dm in
  let o := tmap lt0 dm in
  if (count i =? 2)%nat then
    let cp_out := cp_water (msum i T / 2) in
    match sel o dm with
    | [m] =>
        let T_out := msum i (tmap2 Rmult (tmap2 Rmult dm cp) T) / (cp_out * -1 * m) in
        option_map (mset o T_out) (mcopy i o T)
    | _ => None
    end
  else if (count o =? 2)%nat then
    let T_in := msum o T / 2 in
    option_map (mset i T_in) (mcopy o i T)
  else if (count i =? 1)%nat then
    let z := tmap eq0 dm in
    let T1 := mset z (msum (tmap negb z) T / 2) T in
    match mcopy o i T1 with
    | Some T2 => Some (mset i (msum (tmap negb i) T2 / 2) T2)
    | None => None
    end
  else
    Some (mkTri ((pB T + pC T) / 2) ((pA T + pC T) / 2) ((pA T + pB T) / 2)).

(** [solve_mix], 3597-3627; a division by zero cannot occur since [cp] is not 0 on the
    property range. *)
Definition valve_mix (T dm : tri R) : tri R :=
  if Req_EM_T (pC dm) 0 then
    mkTri ((pB T + pC T) / 2) ((pA T + pC T) / 2) ((pA T + pB T) / 2)
  else
    let m := (pA T + pB T) / 2 in
    mkTri m m ((pA dm * cp_water (pA T) * pA T + pB dm * cp_water (pB T) * pB T)
               / (pC dm * cp_water m)).

(** [solve_split], 3641-3645. *)
Definition valve_split (T : tri R) : tri R :=
  mkTri (pC T) (pC T) ((pA T + pB T) / 2).

(** Valve3w.solve, mixingvalve.py 657-674. *)
Inductive vkind := KMix | KSplit.
Definition valve (k : vkind) (T dm : tri R) : tri R :=
  match k with KMix => valve_mix T dm | KSplit => valve_split T end.

(** The three-way parts on the port array. *)
Definition tri_of (l : list R) : option (tri R) :=
  match l with [a; b; c] => Some (mkTri a b c) | _ => None end.
Definition on_ports (f : tri R -> option (tri R)) (ports : list R) (link : list nat)
  : option (tri R) :=
  match gather ports link with
  | Some l => match tri_of l with Some t => f t | None => None end
  | None => None
  end.

(** [solve_pump]: [T[:] = ports_all[port_link_idx][::-1]]. *)
Definition pump (ports : list R) (link : list nat) : option (list R) :=
  option_map (@rev R) (gather ports link).

(** ** Plate heat exchanger *)

(** Arguments of [solve_platehex] that do not change during a simulation. *)
Record hexgeo := {
  hg_A_plate : R;   (* A_plate_eff *)
  hg_A_chan : R;    (* A_channel *)
  hg_dh : R;        (* d_h *)
  hg_s : R;         (* s_plate *)
  hg_x : R;         (* cell_dist *)
  hg_lam : R;       (* lam_wll[0] *)
  hg_numA : R;      (* num_A *)
  hg_nsup : R;      (* num_channels_sup *)
  hg_ndmd : R;      (* num_channels_dmd *)
  hg_corr : R       (* corr_Re[0] *)
}.

(** Nusselt number of a channel, 4571-4593; [Re > 2300] decides. *)
Definition hex_nusselt (dh x Re Pr : R) : R :=
  let Pe := Re * Pr in
  if Rlt_dec 2300 Re then
    let f := Rpower (1.8 * (ln Re / ln 10) - 1.5) (-2) in
    (f / 8 * Pe) / (1 + 12.7 * (Rpower Pr (2/3) - 1) * Rpower (f / 8) 0.5)
    * (1 + Rpower (dh / x) (2/3))
  else
    let Pe_dx := Pe * dh / x in
    Rpower (49.371 + (1.615 * Rpower Pe_dx (1/3) - 0.7) ^ 3
            + (Rpower (2 / (1 + 22 * Pr)) (1/6) * Rpower Pe_dx 0.5) ^ 3) (1/3).

(** [phex_alpha_i_wll_sep] with [T_wll = T_fld], 4554-4597. *)
Definition hex_alpha (g : hexgeo) (dm T : R) : R :=
  let Re := Rabs (dm / (rho_water T * hg_A_chan g)) * hg_dh g / ny_water T + hg_corr g in
  let K := Rpower (Pr_water T / Pr_water T) 0.11 in
  hex_nusselt (hg_dh g) (hg_x g) Re (Pr_water T) * K * lambda_water T / hg_dh g.

(** [UA_fld_wll_fld[0]], 3449-3483. *)
Definition hex_UA (g : hexgeo) (dms dmd Tms Tmd : R) : R :=
  let ua T dm n := hg_A_plate g / (1 / hex_alpha g (dm / n) T + hg_s g / 2 / hg_lam g) in
  1 / (1 / ua Tms dms (hg_nsup g) + 1 / ua Tmd dmd (hg_ndmd g)) * hg_numA g.

(** Dimensionless temperature change of the supply side, 3487-3519, for non-zero capacity
    flows; the guards for zero and NaN are unreachable then. *)
Definition hex_P (Rs NTU : R) : R :=
  let x := (Rs - 1) * NTU in
  if Req_EM_T Rs 1 then (if Rlt_dec 100 x then 1 / Rs else NTU / (1 + NTU))
  else if Rlt_dec x 100 then (1 - exp x) / (1 - Rs * exp x)
  else if Rlt_dec 100 x then 1 / Rs
  else NTU / (1 + NTU).

(** Port temperatures in the order sup_in, sup_out, dmd_in, dmd_out. *)
Record hexT := mkHexT { si : R; so : R; di : R; do : R }.

(** [solve_platehex], 3388-3556: new port temperatures. *)
Definition platehex (g : hexgeo) (P : hexT) (dm0 dm1 : R) : hexT :=
  let sf := if Rle_dec 0 dm0 then true else false in
  let df := if Rle_dec 0 dm1 then true else false in
  let dms := if sf then dm0 else - dm0 in
  let dmd := if df then dm1 else - dm1 in
  let Tsi := if sf then si P else so P in
  let Tso := if sf then so P else si P in
  let Tdi := if df then di P else do P in
  let Tdo := if df then do P else di P in
  let '(Tso', Tdo') :=
    if (eq0 dms || eq0 dmd)%bool then
      if negb (eq0 dms) then (Tsi, Tdo)
      else if negb (eq0 dmd) then (Tso, Tdi)
      else (Tso, Tdo)
    else
      let Tms := (Tsi + Tso) / 2 in
      let Tmd := (Tdi + Tdo) / 2 in
      let UA := hex_UA g dms dmd Tms Tmd in
      let dCs := dms * cp_water Tms in
      let dCd := dmd * cp_water Tmd in
      let Rs := dCs / dCd in
      let Ps := hex_P Rs (UA / dCs) in
      (Tsi - Ps * (Tsi - Tdi), Tdi + Ps * Rs * (Tsi - Tdi)) in
  {| si := if sf then Tsi else Tso'; so := if sf then Tso' else Tsi;
     di := if df then Tdi else Tdo'; do := if df then Tdo' else Tdi |}.
