(** Steady states of networks and of lines of pipes (C186): vocabulary. *)
From Coq Require Import Reals List Arith Sorted.
From Verif Require Import MFlow MWater MDiff SFlow SDiff MSolver MHeun MRange SRange.
Import ListNotations.
Open Scope R_scope.

(** A part at work: temperatures of its cells (entries 1 to n) and ports, arrays of earlier evaluations. *)
Record spot := mkSpot { sp_node : node; sp_T : arr; sp_P : arr; sp_b : buf; sp_f : flows }.
Definition sp_geo (s : spot) : geo := nd_geo (sp_node s).
Definition sp_n (s : spot) : nat := g_n (sp_geo s).
Definition sp_res (s : spot) : res := node_res (sp_node s) (sp_T s) (sp_P s) (sp_b s, sp_f s).
(** No cell changes its temperature any more. *)
Definition steady (s : spot) : Prop := forall j, (j < sp_n s)%nat -> r_tot (sp_res s) j = 0.

Definition placed (geo_ok : geo -> Prop) (lo hi : R) (s : spot) : Prop :=
  (exists np, node_ok geo_ok lo hi np (sp_geo s) (sp_node s)) /\ bufs_at (sp_geo s) (sp_b s) /\
  flows_at (sp_geo s) (sp_f s) /\
  (forall j, (j < sp_n s)%nat -> 0 <= sp_T s (S j) <= 100) /\ steady s.

(** A port shows a temperature of the surroundings or that of a cell of the network. *)
Definition cell_of (ss : list spot) (x : R) : Prop :=
  exists s j, In s ss /\ (j < sp_n s)%nat /\ x = sp_T s (S j).
Definition settled (geo_ok : geo -> Prop) (lo hi : R) (ss : list spot) : Prop :=
  Forall (fun s => placed geo_ok lo hi s /\
    forall i, (i < g_np (sp_geo s))%nat -> lo <= sp_P s i <= hi \/ cell_of ss (sp_P s i)) ss.

(** Pipes one after another with the flow [dm] in a room of [Ta]: [Tin] enters the first, [Tout] is the
    temperature behind the last; the ports in between show the neighbouring cells. *)
Definition last_cell (s : spot) : R := sp_T s (sp_n s).
Inductive line (geo_ok : geo -> Prop) (Ta dm : R) : R -> list spot -> R -> Prop :=
| ln_end s : placed geo_ok Ta Ta s -> nd_kind (sp_node s) = KPipe dm ->
    line geo_ok Ta dm (sp_P s 0%nat) [s] (sp_P s 1%nat)
| ln_next s s' ss Tout : placed geo_ok Ta Ta s -> nd_kind (sp_node s) = KPipe dm ->
    sp_P s 1%nat = sp_T s' 1%nat -> line geo_ok Ta dm (last_cell s) (s' :: ss) Tout ->
    line geo_ok Ta dm (sp_P s 0%nat) (s :: s' :: ss) Tout.

Definition cells (s : spot) : list R := map (fun j => sp_T s (S j)) (seq 0 (sp_n s)).

(** Share of the excess temperature a cell lets pass: its loss against flow and conduction from the side
    of the inlet. *)
Definition share (dm : R) (s : spot) (j : nat) : R :=
  let k := match j with O => r_uap (sp_res s) 0%nat | _ => r_tb (sp_res s) j end in
  / (1 + r_ua (sp_res s) j / (4400 * dm + k)).
Definition shares (dm : R) (s : spot) : R :=
  fold_right (fun j acc => share dm s j * acc) 1 (seq 0 (sp_n s)).
