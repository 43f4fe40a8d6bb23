(** Model of the numeric (discretised) plate heat exchanger: multisim/parts/hex_num.py and
    [hexnum_diff] of multisim/precomp_funs.py with its stability check.
    Simplifications: exact real arithmetic; two-dimensional arrays are functions of row and
    column.  Column 0 is the supply water, column 1 the plate, column 2 the demand water;
    [Tx i c] is the extended temperature array, so cell [(i, c)] is [Tx (S i) (S c)].  The water
    arrays with one column per side have column [s] = 0 (supply) or 1 (demand). *)
From Coq Require Import Reals List Arith Bool.
From Verif Require Import MFlow MWater MDiff MMix.
Open Scope R_scope.

Definition grid := nat -> nat -> R.

(** Fixed data passed to [hexnum_diff], lines 2593-2648.  [hn_div s]: number of channels of side
    [s] ([channel_divisor]). *)
Record hexn := {
  hn_n : nat;       (* num_gp *)
  hn_div : nat -> nat;
  hn_Ach : R; hn_gsp : R; hn_dh : R; hn_s : R; hn_x : arr; hn_corr : R;
  hn_A : R;         (* A_plate_eff *)
  hn_V : R;         (* V_cell_fld *)
  hn_lamw : R;      (* lam_wll *)
  hn_mcpw : R;      (* wall column of mcp *)
  hn_uaw : R;       (* UA_dim1_wll *)
  hn_pA : arr; hn_pgsp : arr; hn_psub : arr; hn_pw : arr }.

(** Number of channels of the two sides, hex_num.py 112-152, for accepted arguments;
    [None]: the assertion fails. *)
Definition channels (passes plates : nat) (max_sup : bool) : option (nat * nat) :=
  match passes with
  | O => None
  | 1%nat =>
    if Nat.even plates
    then Some (if max_sup then (plates / 2, plates / 2 - 1)%nat
                          else (plates / 2 - 1, plates / 2)%nat)
    else None
  | _ =>
    (* [((plates - 1) / passes) % 2 == 0] *)
    if ((plates - 1) mod (2 * passes) =? 0)%nat
    then Some ((plates - 1) / (passes * 2), (plates - 1) / (passes * 2))%nat else None
  end.

(** The arrays computed from the user's geometry with [channel_width] given and neither
    [A_plate], [channel_area] nor [V_channel]: hex_num.py 500-503, 553-559, 797-882, 1056-1104.
    [L], [W]: length and width; [dp]: port diameter; [rc]: corner radius; [sch]: channel width;
    [sp]: plate thickness; [mpp]: mass per plate; [cpw]: heat capacity of the plate. *)
Definition plate_area (L W dp rc : R) : R := L * W - dp ^ 2 * PI - ((2 * rc) ^ 2 - rc ^ 2 * PI).
Definition hexn_of (n : nat) (passes : nat) (nch : nat * nat) (L W dp rc sch sp lamw mpp cpw corr : R)
  (pA pgsp psub pw : arr) : hexn :=
  let A := plate_area L W dp rc in
  let gsp := L / INR n in
  {| hn_n := n; hn_div := fun s => match s with O => fst nch | _ => snd nch end;
     hn_Ach := sch * W; hn_gsp := gsp; hn_dh := sch * 2; hn_s := sp;
     hn_x := fun j => gsp / 2 + INR j * gsp; hn_corr := corr;
     hn_A := A * INR passes; hn_V := sch * A / INR n; hn_lamw := lamw;
     hn_mcpw := mpp * cpw / INR n; hn_uaw := sp * W / gsp * lamw;
     hn_pA := pA; hn_pgsp := pgsp; hn_psub := psub; hn_pw := pw |}.

(** [phex_alpha_i_wll_sep_discretized] with [T_wll = T_fld], lines 4601-4683: the formula of
    [phex_alpha_i_wll_sep] with one distance per cell. *)
Definition hexn_alpha (g : hexn) (dm T x : R) : R :=
  hex_alpha {| hg_A_plate := hn_A g; hg_A_chan := hn_Ach g; hg_dh := hn_dh g; hg_s := hn_s g;
               hg_x := x; hg_lam := hn_lamw g; hg_numA := 1; hg_nsup := 1; hg_ndmd := 1;
               hg_corr := hn_corr g |} dm T.

(** Flow arrays: [dm_top], [dm_bot] with a column per side, [dm_port] with four entries. *)
Record hflows := { hf_top : nat -> arr; hf_bot : nat -> arr; hf_port : arr }.
(** All zero as allocated, hex_num.py 244-249. *)
Definition hflows0 : hflows :=
  {| hf_top := fun _ _ => 0; hf_bot := fun _ _ => 0; hf_port := fun _ => 0 |}.
(** [_process_flow_multi_flow] for the two channels of the exchanger. *)
Definition hexn_flows (n : nat) (io : arr) (f : hflows) : hflows :=
  match process_flow_multi n 2 io (hf_top f) (hf_bot f) (hf_port f) with
  | (t, b, p) => {| hf_top := t; hf_bot := b; hf_port := p |}
  end.

(** [port_own_idx], hex_num.py 280-288: flat index into the [n] x 3 arrays. *)
Definition hexn_own (n p : nat) : nat :=
  match p with 0%nat => 0 | 1%nat => (n - 1) * 3 | 2%nat => 2 | _ => n * 3 - 1 end.
(** [a.flat[k]] for an array with [w] columns. *)
Definition flat (w : nat) (a : grid) (k : nat) : R := a (k / w)%nat (k mod w)%nat.
(** [a.flat[k]] for the [n] x 2 array of the water conductivities.  Compiled code does not check
    the bounds; [junk k] is what it finds at an index outside the array. *)
Definition flat_lam (n : nat) (junk : nat -> R) (lam : grid) (k : nat) : R :=
  if (k <? n * 2)%nat then flat 2 lam k else junk k.

(** Everything one evaluation computes. *)
Record hres := {
  hr_alpha : grid; hr_ua1 : grid; hr_ua2 : grid; hr_uap : arr; hr_rho : grid; hr_rhocp : grid;
  hr_mcp : grid; hr_cond : grid; hr_adv : grid; hr_tot : grid }.

(** Conductivity of the water on both sides, n x 2, line 2671. *)
Definition hexn_lam (Tx : grid) : grid := fun i s => lambda_water (Tx (S i) (2 * s + 1)%nat).

(** [for i in range(4): a.flat[own[i]] += c[i]]; only rows below [n] and columns below 3 matter. *)
Definition hexn_add (n : nat) (c : arr) (a : grid) : grid := fun i k =>
  if (k <? 3)%nat then add_ports (hexn_own n) c 4 (fun m => flat 3 a m) (i * 3 + k)%nat else a i k.

(** [hexnum_diff], lines 2650-2817, after the flows were processed.  [lamT k]: what
    [lam_T.flat[k]] gives in [_process_ports_collapsed] (lines 250-297). *)
Definition hexn_body (g : hexn) (lamT : nat -> R) (io : arr) (f : hflows) (Tx : grid) (Tp : arr)
  : hres :=
  let n := hn_n g in
  let T := fun i c => Tx (S i) (S c) in
  let cp := fun i s => cp_water (Tx i (2 * s + 1)%nat) in
  let rho := fun i s => rho_water (Tx (S i) (2 * s + 1)%nat) in
  let lm := fun i s => lam_mean (fun k => hexn_lam Tx k s) i in
  let ua1 := fun i c =>
    if ((1 <=? i) && (i <? n))%nat
    then match c with
         | 0%nat => hn_Ach g / hn_gsp g * lm (i - 1)%nat 0%nat
         | 1%nat => hn_uaw g
         | _ => hn_Ach g / hn_gsp g * lm (i - 1)%nat 1%nat
         end
    else 0 in
  let alpha := fun i s =>
    hexn_alpha g (io s / INR (hn_div g s)) (Tx (S i) (2 * s + 1)%nat) (hn_x g i) in
  let ua2 := fun i c =>
    if ((c =? 1) || (c =? 2))%nat
    then hn_A g / (1 / alpha i (c - 1)%nat + hn_s g / 2 / hn_lamw g) else 0 in
  let rhocp := fun i c => if (c =? 1)%nat then 0 else rho i (c / 2)%nat * cp (S i) (c / 2)%nat in
  let mcp := fun i c => if (c =? 1)%nat then hn_mcpw g else hn_V g * rhocp i c in
  let ui := fun i c => cp (S i) (c / 2)%nat * T i c in
  let uap := fun p =>
    hn_pA g p / (hn_pgsp g p / (2 * lambda_water (Tp p))
                 + hn_gsp g / (2 * lamT (hexn_own n p))) + hn_pw g p in
  let cond0 := fun i c =>
    (ua1 i c * (Tx i (S c) - T i c) + ua1 (S i) c * (Tx (S (S i)) (S c) - T i c)
     + ua2 i c * (Tx (S i) c - T i c) + ua2 i (S c) * (Tx (S i) (S (S c)) - T i c)) / mcp i c in
  let adv0 := fun i c =>
    if (c =? 1)%nat then 0
    else (hf_top f (c / 2)%nat i * (cp i (c / 2)%nat * Tx i (S c) - ui i c)
          + hf_bot f (c / 2)%nat i * (cp (S (S i)) (c / 2)%nat * Tx (S (S i)) (S c) - ui i c))
         / mcp i c in
  let cond := hexn_add n (fun p =>
    uap p * (Tp p - flat 3 T (hexn_own n p)) / flat 3 mcp (hexn_own n p)) cond0 in
  let adv1 := hexn_add n (fun p =>
    hf_port f p * (cp_water (Tp p) * Tp p - flat 3 ui (hexn_own n p))
    / flat 3 mcp (hexn_own n p)) adv0 in
  let adv := fun i c => if (c =? 1)%nat then adv1 i c else adv1 i c / INR (hn_div g (c / 2)%nat) in
  {| hr_alpha := alpha; hr_ua1 := ua1; hr_ua2 := ua2; hr_uap := uap; hr_rho := rho;
     hr_rhocp := rhocp; hr_mcp := mcp; hr_cond := cond; hr_adv := adv;
     hr_tot := fun i c => cond i c + adv i c |}.

(** [hexnum_diff] itself: the water conductivities (n x 2) are passed as [lam_T]. *)
Definition hexn_diff (g : hexn) (junk : nat -> R) (io : arr) (f : hflows) (Tx : grid) (Tp : arr)
  : hres :=
  hexn_body g (flat_lam (hn_n g) junk (hexn_lam Tx)) io (hexn_flows (hn_n g) io f) Tx Tp.

(** The methods [get_diff_impl_ext] and [get_diff_impl] of the class, hex_num.py 1318-1640, pass the n x 3 array
    [_lam_T] whose outer columns are the water conductivities. *)
Definition hexn_diff_method (g : hexn) (io : arr) (f : hflows) (Tx : grid) (Tp : arr) : hres :=
  hexn_body g (fun k => flat 3 (fun i c => if (c =? 1)%nat then 0 else hexn_lam Tx i (c / 2)%nat) k)
    io (hexn_flows (hn_n g) io f) Tx Tp.

(** Largest entry of rows [0 .. m-1] and columns [0 .. w-1]. *)
Definition gmax (m w : nat) (a : grid) : R := amax m (fun i => amax w (fun c => a i c)).

(** [_vonNeumann_stability_invar_hexnum], lines 761-890: the divider [vN_div_max]; the step is
    accepted when it is at most 1. *)
Definition hexn_vn_div (g : hexn) (io : arr) (r : hres) (dt : R) : R :=
  let n := hn_n g in
  let rc := gmax n 3 (hr_rhocp r) in
  let d0 := gmax (n + 1) 3 (hr_ua1 r) / rc * dt / (hn_Ach g * hn_gsp g) in
  let d1 := gmax n 4 (hr_ua2 r) / rc * dt / (hn_A g * hn_gsp g) in
  let d2 := amax 4 (fun p => hr_uap r p / (hn_pA g p * hn_psub g p)) / rc * dt in
  Rmax (Rmax (Rmax d0 d1) d2 / 0.5)
       (amax 2 (fun s => Rabs (Rabs (io s / INR (hn_div g s)))) * dt
          / (hn_V g * gmax n 2 (hr_rho r)) / 1).
