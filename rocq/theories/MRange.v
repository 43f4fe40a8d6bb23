(** Pipes, branched pipes and storages as parts of the adaptive Heun solver: the differential of
    [MDiff] with its stability check, put into the solver of [MHeun].

    Code: /repo/multisim/simenv.py 3974-3988 and 4020-4042 (calls of [get_diff] in the predictor
    and corrector loop), /repo/multisim/parts/pipe.py 560-640, tes.py 700-760 (arguments handed to
    the differential functions), /repo/multisim/precomp_funs.py 1031-1234, 1662-1868, 2095-2372.
    Simplifications: those of [MDiff] and [MHeun]; the flow arrays are processed in each call
    instead of in the first call of a step only ([process_flows], the flows do not change during a
    step); the dummy cells of the extended temperature array, which no result depends on
    ([C55]), repeat a cell. *)
From Coq Require Import Reals List Arith.
From Verif Require Import MFlow MWater MDiff MSolver MHeun MMix.
Import ListNotations.
Open Scope R_scope.

(** Type of a part and the flows through its ports. *)
Inductive kind := KPipe (io : R) | KBranch (io : arr) | KTes (io : arr).

(** A part in the network: geometry, flows, ambient temperature, indices of its ports in the port
    array of the environment, error weights of its cells. *)
Record node := mkNode { nd_geo : geo; nd_kind : kind; nd_amb : R; nd_ids : nat -> nat; nd_w : vec }.

(** Cells of the part as the extended array of the differential functions. *)
Definition ext (T : vec) : arr := fun k => nth (k - 1) T 0.

(** The differential function called for the part, the flow arrays afterwards, and the largest
    flow its stability check looks at. *)
Definition node_res (p : node) (Tx Tp : arr) (bf : buf * flows) : res :=
  let g := nd_geo p in
  match nd_kind p with
  | KPipe io => pipe_diff g io (snd bf) Tx Tp (nd_amb p) (fst bf)
  | KBranch io => branched_diff g io (snd bf) Tx Tp (nd_amb p) (fst bf)
  | KTes io => tes_diff g io (snd bf) Tx Tp (nd_amb p) (fst bf)
  end.
Definition node_flows (p : node) (f : flows) : flows :=
  let g := nd_geo p in
  match nd_kind p with
  | KPipe io => process_flow_invar (g_n g) (g_np g) io f
  | KBranch io | KTes io => fst (process_flow_var (g_n g) (g_np g) (g_own g) io f)
  end.
Definition node_max (p : node) (f : flows) : R :=
  match nd_kind p with
  | KPipe io => flow_pipe io
  | KBranch io => flow_branched (g_np (nd_geo p)) io
  | KTes _ => flow_tes (g_n (nd_geo p)) (g_np (nd_geo p)) f
  end.

(** One call of [get_diff]: differential of all cells, divider if the check reports a violation
    (precomp_funs.py 715-741, 986-1013), arrays left behind. *)
Definition node_part (p : node) : epart (buf * flows) :=
  mkEpart (fun h ports T bf =>
    let r := node_res p (ext T) (fun i => nth (nd_ids p i) ports 0) bf in
    let f := node_flows p (snd bf) in
    (map (r_tot r) (seq 0 (g_n (nd_geo p))),
     match vn_div_nan (nd_geo p) r (node_max p f) h with
     | Some d => if Rlt_dec 1 d then Some d else None
     | None => None end,
     (buf_after r, f))) (nd_w p).

(** Pumps, splitting valves and three-way connectors as parts without differential
    (precomp_funs.py 3274-3345, 3627-3661); [link] are the port indices, [dm] the flows of the
    connector.  An index error gives an empty row. *)
Definition pump_part (link : list nat) : npart := fun _ ports =>
  match pump ports link with Some v => v | None => [] end.
Definition tri_part (f : tri R -> option (tri R)) (link : list nat) : npart := fun _ ports =>
  match on_ports f ports link with Some t => [pA t; pB t; pC t] | None => [] end.
