(** Specification vocabulary for temperature ranges of whole networks (C156). *)
From Coq Require Import Reals List Arith Bool.
From Verif Require Import MFlow MWater MDiff SFlow SDiff MSolver MHeun MRange.
Import ListNotations.
Open Scope R_scope.

(** A vector of [n] temperatures, all between [lo] and [hi]. *)
Definition inside (lo hi : R) (n : nat) (v : vec) : Prop :=
  length v = n /\ Forall (fun x => lo <= x <= hi) v.

(** A part keeps the range if an Euler step of at most [hmax] from temperatures in the range, with
    port temperatures in the range, ends in the range; reported dividers exceed one. *)
Definition keeps {Buf} (lo hi hmax : R) (np n : nat) (P : Buf -> Prop) (p : epart Buf) : Prop :=
  forall h ports T b, 0 <= h <= hmax -> inside lo hi np ports -> inside lo hi n T -> P b ->
  let '(d, br, b1) := ep_diff p h ports T b in
  inside lo hi n (vadd T (vscale h d)) /\ length d = n /\ P b1 /\
  match br with Some v => 1 < v | None => True end.
(** Connectors, valves and pumps, and parts solved by a root finder. *)
Definition keepsN (lo hi : R) (np n : nat) (f : npart) : Prop :=
  forall h ports, inside lo hi np ports -> inside lo hi n (f h ports).
Definition keepsI (lo hi : R) (np n : nat) (f : ipart) : Prop :=
  forall h ports T, inside lo hi np ports -> inside lo hi n T -> inside lo hi n (f h ports T).

(** Sizes of a network: number of ports, cells of the explicit, non-numeric and implicit parts. *)
Record sizes := mkSizes { sz_p : nat; sz_e : list nat; sz_n : list nat; sz_i : list nat }.

(** Every port source exists. *)
Definition wired (z : sizes) (ps : list (nat * src)) : Prop :=
  forall k s, In (k, s) ps ->
  match s with
  | SrcE p c => (c < nth p (sz_e z) 0)%nat
  | SrcN p c => (c < nth p (sz_n z) 0)%nat
  | SrcI p c => (c < nth p (sz_i z) 0)%nat
  end.

Definition rows (lo hi : R) (ns : list nat) (V : list vec) : Prop := Forall2 (inside lo hi) ns V.

(** A model all of whose parts keep the range. *)
Definition keeping {Buf} (lo hi hmax : R) (z : sizes) (Ps : list (Buf -> Prop)) (mo : model Buf) : Prop :=
  Forall2 (fun nP p => keeps lo hi hmax (sz_p z) (fst nP) (snd nP) p) (combine (sz_e z) Ps) (mo_e mo) /\
  length Ps = length (sz_e z) /\
  Forall2 (keepsN lo hi (sz_p z)) (sz_n z) (mo_n mo) /\
  Forall2 (keepsI lo hi (sz_p z)) (sz_i z) (mo_i mo) /\
  wired z (mo_ports mo).

(** Memory before a step: ports, previous rows in the range, arrays of the right size. *)
Definition ready {Buf} (lo hi : R) (z : sizes) (Ps : list (Buf -> Prop)) (m : mem Buf) : Prop :=
  inside lo hi (sz_p z) (m_ports m) /\ rows lo hi (sz_e z) (m_prevE m) /\
  rows lo hi (sz_i z) (m_prevI m) /\ Forall2 (fun P b => P b) Ps (m_buf m) /\
  length (m_T m) = length (sz_e z) /\ length (m_df0 m) = length (sz_e z) /\
  length (m_df1 m) = length (sz_e z) /\ length (m_resE m) = length (sz_e z).

(** Between two steps: the new row becomes the previous one; boundary conditions may write any
    temperature in the range to any port (simenv.py 4996-5030). *)
Definition handover {Buf} (lo hi : R) (m1 m2 : mem Buf) : Prop :=
  m_prevE m2 = m_resE m1 /\ m_prevI m2 = m_ires m1 /\ m_buf m2 = m_buf m1 /\
  length (m_T m2) = length (m_T m1) /\ length (m_df0 m2) = length (m_df0 m1) /\
  length (m_df1 m2) = length (m_df1 m1) /\ length (m_resE m2) = length (m_resE m1) /\
  Forall2 (fun x y => y = x \/ lo <= y <= hi) (m_ports m1) (m_ports m2).

(** A run of the solver; flows, ambient temperatures and wiring may differ from step to step. *)
Inductive net_run {Buf} (lo hi : R) (ok : model Buf -> Prop) (c : cfg)
  : mem Buf -> sst -> mem Buf -> sst -> Prop :=
| nr_nil m s : net_run lo hi ok c m s m s
| nr_step mo fuel m s u m1 s1 m2 m3 s3 :
    ok mo -> heun_adaptive mo c fuel m s = FAccepted u m1 s1 -> handover lo hi m1 m2 ->
    net_run lo hi ok c m2 s1 m3 s3 -> net_run lo hi ok c m s m3 s3.

(** Heat exchanged per kelvin with everything cell [j] touches, W/K; 4400 J/kg/K is at least the
    slope of the specific enthalpy of water between 0 and 100 degrees. *)
Definition touch (p : node) (r : res) (f : flows) (j : nat) : R :=
  let g := nd_geo p in
  r_tb r j + r_tb r (S j) + r_ua r j
  + match nd_kind p with
    | KTes _ => (if (j =? 0)%nat then r_lid r 0%nat else 0)
                + (if (j =? g_n g - 1)%nat then r_lid r 1%nat else 0)
    | _ => 0 end
  + at_cell (g_np g) (g_own g) (r_uap r) j
  + 4400 * cell_in (f_top f) (f_bot f) (g_np g) (g_own g) (f_port f) j.

(** A step of [hmax] moves at most as much heat per kelvin as a cell holds. *)
Definition short (lo hi hmax : R) (p : node) : Prop :=
  let g := nd_geo p in
  forall Tx Tp b f, bufs_at g b -> flows_at g f ->
  (forall j, (j < g_n g)%nat -> lo <= Tx (S j) <= hi) ->
  (forall i, (i < g_np g)%nat -> lo <= Tp i <= hi) ->
  forall j, (j < g_n g)%nat ->
  hmax * touch p (node_res p Tx Tp (b, f)) (node_flows p f) j <= capacity g Tx j.

(** A network node: valid geometry [g], flows in balance, ambient temperature in the range, port
    numbers in the port array. *)
Definition node_ok (geo_ok : geo -> Prop) (lo hi : R) (np : nat) (g : geo) (p : node) : Prop :=
  nd_geo p = g /\ geo_ok g /\ lo <= nd_amb p <= hi /\
  (forall i, (i < g_np g)%nat -> (nd_ids p i < np)%nat) /\
  match nd_kind p with
  | KPipe _ => pipe_ports g
  | KBranch io | KTes io => branch_ports g /\ rsum (g_np g) io = 0
  end.

(** Explicit bounds: water conducts less than 0.681 W/m/K, insulation limits shell and lids, the
    far half of a port connection is dropped, a cell takes in no more than enters the part.
    [N] bounds the Nusselt number of the buoyancy correction of a storage. *)
Definition inflow (p : node) : R :=
  match nd_kind p with
  | KPipe io => Rabs io
  | KBranch io | KTes io => rsum (g_np (nd_geo p)) (fun i => Rmax 0 (io i))
  end.
Definition node_limit (p : node) (N : R) : R :=
  let g := nd_geo p in
  2 * (match nd_kind p with KTes _ => 0.681 * Rmax 1 (20 * N) | _ => 0.681 end * g_A g / g_gsp g + g_tbw g)
  + g_Ai g * g_li g / g_rli g
  + match nd_kind p with KTes _ => g_A g * g_li g / g_sins g | _ => 0 end
  + rsum (g_np g) (fun i => 1.362 * g_pA g i / g_gsp g + g_pw g i)
  + 4400 * inflow p.

(** Arrays that any number of earlier evaluations may have left behind. *)
Definition surv (g : geo) (bf : buf * flows) : Prop := bufs_at g (fst bf) /\ flows_at g (snd bf).

(** A network of pipes, branched pipes and storages with geometries [gs], other parts that keep the
    range, and steps of [hmax] being short for every part. *)
Definition network (geo_ok : geo -> Prop) (lo hi hmax : R) (gs : list geo) (z : sizes)
  (mo : model (buf * flows)) : Prop :=
  exists ps, mo_e mo = map node_part ps /\
  Forall2 (fun g p => node_ok geo_ok lo hi (sz_p z) g p /\ short lo hi hmax p) gs ps /\
  Forall2 (keepsN lo hi (sz_p z)) (sz_n z) (mo_n mo) /\
  Forall2 (keepsI lo hi (sz_p z)) (sz_i z) (mo_i mo) /\
  wired z (mo_ports mo).
