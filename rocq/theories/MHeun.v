(** Model of one call of the adaptive Heun solver including the numerical state.

    Code: /repo/multisim/simenv.py [SimEnv._heun_adaptive] (3920-4260),
    [SimEnv._create_port_updater] (4432-4471);
    /repo/multisim/precomp_funs.py [_upddate_ports_interm] (33-46),
    [_upddate_ports_result] (50-62), [_heun_corrector_adapt] (3733-3782). *)
From Coq Require Import Reals List Arith.
From Verif Require Import MSolver.
Import ListNotations.
Open Scope R_scope.

Definition vec := list R.

(** Element-wise array operations. *)
Fixpoint vmap2 (f : R -> R -> R) (a b : vec) : vec :=
  match a, b with
  | x :: a', y :: b' => f x y :: vmap2 f a' b'
  | _, _ => []
  end.
Definition vadd := vmap2 Rplus.
Definition vsub := vmap2 Rminus.
Definition vscale (k : R) (a : vec) : vec := map (fun x => k * x) a.

(** Overwrite one array element (out of range leaves the array unchanged; the code never
    does that since target indices are port ids). *)
Fixpoint upd (i : nat) (x : R) (a : vec) : vec :=
  match a, i with
  | [], _ => []
  | _ :: a', O => x :: a'
  | y :: a', S i' => y :: upd i' x a'
  end.

Section Heun.
(** Part-internal working buffers that survive a call of the differential (alpha values,
    conductances, surface temperatures, ...). *)
Variable Buf : Type.

(** A part solved by the explicit solver.  [ep_diff h ports T buf] is a call of
    [part.get_diff(h)] with current port array and temperatures: it returns the
    differential, a stability violation if any (its divider) and the new buffers.
    Mass flows are fixed during a step (they are only updated in [_update_FlowNet]) and thus
    part of the function. *)
Record epart := mkEpart {
  ep_diff   : R -> vec -> vec -> Buf -> vec * option R * Buf;
  ep_weight : vec
}.

(** A part without differential (connectors, valves, pumps, heat exchangers): [part.solve]
    recomputes its temperatures from the port array (simenv.py 4009-4011, 4094-4096). *)
Definition npart := R -> vec -> vec.

(** A part solved implicitly: half step by a root finder (simenv.py 3998-4007, 4045-4058);
    the root finder is an arbitrary function of the step, ports and start value. *)
Definition ipart := R -> vec -> vec -> vec.

(** Where a port value comes from: kind of part, part number, flat cell index
    (simenv.py 4440-4461: view of [T], respectively flat index into [res]). *)
Inductive src := SrcE (p c : nat) | SrcN (p c : nat) | SrcI (p c : nat).

Record model := mkModel {
  mo_e : list epart;
  mo_n : list npart;
  mo_i : list ipart;
  mo_ports : list (nat * src);   (* (_ports_trgt_idx, source) *)
  mo_rtol : R; mo_atol : R;
  mo_cells : R                   (* _num_cells_tot_nmrc_expl *)
}.

(** Mutable memory of the solver. [m_prevE], [m_prevI] is row [stepnum-1] of the result
    arrays, [m_resX] is row [stepnum]. *)
Record mem := mkMem {
  m_ports : vec; m_bkp : vec;
  m_prevE : list vec; m_prevI : list vec;
  m_T : list vec; m_df0 : list vec; m_df1 : list vec; m_buf : list Buf;
  m_resE : list vec;
  m_nT : list vec; m_nres : list vec;
  m_iT : list vec; m_ires : list vec
}.

Definition getv (l : list vec) (p c : nat) : R := nth c (nth p l []) 0.

(** Copy source values to the port array one after another
    (precomp_funs.py 42-46 and 57-62). *)
Definition update_ports (ps : list (nat * src)) (E N I : list vec) (ports : vec) : vec :=
  fold_left (fun acc ts =>
    upd (fst ts) (match snd ts with
                  | SrcE p c => getv E p c
                  | SrcN p c => getv N p c
                  | SrcI p c => getv I p c end) acc) ps ports.

(** Predictor loop over the explicit parts (simenv.py 3974-3988): for each part load the
    previous result into [T], evaluate, do an Euler step; stop at the first part reporting a
    violation.  Returns new [T], [df0], buffers and the violation. *)
Fixpoint predict (h : R) (ports : vec) (ps : list epart) (prev T df0 : list vec)
    (buf : list Buf) : list vec * list vec * list Buf * option R :=
  match ps, prev, T, df0, buf with
  | p :: ps', y :: prev', _ :: T', _ :: df0', b :: buf' =>
      let '(d, br, b1) := ep_diff p h ports y b in
      let t := vadd y (vscale h d) in
      match br with
      | Some v => (t :: T', d :: df0', b1 :: buf', Some v)
      | None =>
          let '(T1, d1, bs, r) := predict h ports ps' prev' T' df0' buf' in
          (t :: T1, d :: d1, b1 :: bs, r)
      end
  | _, _, _, _, _ => (T, df0, buf, None)
  end.

(** Error contribution of a part (precomp_funs.py 3763-3770). *)
Fixpoint trnc_err (rtol atol : R) (res T w prev : vec) : R :=
  match res, T, w, prev with
  | r :: res', t :: T', x :: w', y :: prev' =>
      ((r - t) * x / (Rmax y r * rtol + atol)) ^ 2 + trnc_err rtol atol res' T' w' prev'
  | _, _, _, _ => 0
  end.

(** Corrector loop (simenv.py 4020-4042 with precomp_funs.py 3733-3782): evaluate at the
    predicted temperatures, store [res], accumulate the error, copy [res] to [T].  Stability
    violations ([ds]) do not stop it. *)
Fixpoint correct (rtol atol h : R) (ports : vec) (ps : list epart)
    (prev T df0 df1 res : list vec) (buf : list Buf) (err : R)
    : list vec * list vec * list vec * list Buf * list R * R :=
  match ps, prev, T, df0, df1, res, buf with
  | p :: ps', y :: prev', t :: T', d0 :: df0', _ :: df1', _ :: res', b :: buf' =>
      let '(d1, br, b1) := ep_diff p h ports t b in
      let r := vadd y (vscale (h / 2) (vadd d0 d1)) in
      let err' := err + trnc_err rtol atol r t (ep_weight p) y in
      let '(T1, df1', res1, bs, ds, e) :=
        correct rtol atol h ports ps' prev' T' df0' df1' res' buf' err' in
      (r :: T1, d1 :: df1', r :: res1, b1 :: bs,
       match br with Some v => v :: ds | None => ds end, e)
  | _, _, _, _, _, _, _ => (T, df1, res, buf, [], err)
  end.

Fixpoint imap {A} (f : A -> vec -> vec) (ps : list A) (xs : list vec) : list vec :=
  match ps, xs with
  | p :: ps', x :: xs' => f p x :: imap f ps' xs'
  | _, _ => xs
  end.

(** System error (simenv.py 4110): RMS over all cells. NaN does not occur over the reals. *)
Definition sys_err (mo : model) (err : R) : errval := ENum (sqrt (err / mo_cells mo)).

(** One pass of the while loop on the memory (simenv.py 3966-4102). *)
Definition num_attempt (mo : model) (h : R) (m : mem) : mem * outcome :=
  let '(T1, df0, buf1, br) :=
    predict h (m_ports m) (mo_e mo) (m_prevE m) (m_T m) (m_df0 m) (m_buf m) in
  match br with
  | Some d =>
      (mkMem (m_ports m) (m_bkp m) (m_prevE m) (m_prevI m) T1 df0 (m_df1 m) buf1
             (m_resE m) (m_nT m) (m_nres m) (m_iT m) (m_ires m), OUnstable d)
  | None =>
      let iT := imap (fun f y => f (h / 2) (m_ports m) y) (mo_i mo) (m_prevI m) in
      let nT1 := map (fun f => f h (m_ports m)) (mo_n mo) in
      let ports1 := update_ports (mo_ports mo) T1 nT1 iT (m_ports m) in
      let '(T2, df1, res, buf2, ds, err) :=
        correct (mo_rtol mo) (mo_atol mo) h ports1 (mo_e mo) (m_prevE m) T1 df0
                (m_df1 m) (m_resE m) buf1 0 in
      let ires := imap (fun f y => f (h / 2) ports1 y) (mo_i mo) iT in
      let nT2 := map (fun f => f h ports1) (mo_n mo) in
      let ports2 := update_ports (mo_ports mo) res nT2 ires ports1 in
      (mkMem ports2 (m_bkp m) (m_prevE m) (m_prevI m) T2 df0 df1 buf2
             res nT2 nT2 iT ires, OStable ds (sys_err mo err))
  end.

(** Reset of the port array before a retry (simenv.py 4199, 4229). *)
Definition restore (m : mem) : mem :=
  mkMem (m_bkp m) (m_bkp m) (m_prevE m) (m_prevI m) (m_T m) (m_df0 m) (m_df1 m) (m_buf m)
        (m_resE m) (m_nT m) (m_nres m) (m_iT m) (m_ires m).

Inductive full_res :=
| FAccepted (used : R) (m : mem) (s : sst)
| FRaised (m : mem)
| FOutOfFuel.

(** The whole while loop: numerical attempt, then step-size control [MSolver.attempt]. *)
Fixpoint full_loop (mo : model) (c : cfg) (fuel : nat) (m : mem) (s : sst) : full_res :=
  match fuel with
  | O => FOutOfFuel
  | S f =>
      let '(m', o) := num_attempt mo (s_h s) m in
      match attempt c s o with
      | AAccept u _ s' => FAccepted u m' s'
      | ARetry s' => full_loop mo c f (restore m') s'
      | ARaise => FRaised (restore m')
      end
  end.

(** One call of [_heun_adaptive]: back up the ports (simenv.py 3954), run the loop. *)
Definition heun_adaptive (mo : model) (c : cfg) (fuel : nat) (m : mem) (s : sst) : full_res :=
  full_loop mo c fuel
    (mkMem (m_ports m) (m_ports m) (m_prevE m) (m_prevI m) (m_T m) (m_df0 m) (m_df1 m)
           (m_buf m) (m_resE m) (m_nT m) (m_nres m) (m_iT m) (m_ires m)) (enter s).

End Heun.

Arguments mkEpart {Buf}. Arguments ep_diff {Buf}. Arguments ep_weight {Buf}.
Arguments mkModel {Buf}. Arguments mo_e {Buf}. Arguments mo_n {Buf}. Arguments mo_i {Buf}.
Arguments mo_ports {Buf}. Arguments mo_rtol {Buf}. Arguments mo_atol {Buf}.
Arguments mo_cells {Buf}. Arguments mkMem {Buf}.
Arguments m_ports {Buf}. Arguments m_bkp {Buf}. Arguments m_prevE {Buf}.
Arguments m_prevI {Buf}. Arguments m_T {Buf}. Arguments m_df0 {Buf}. Arguments m_df1 {Buf}.
Arguments m_buf {Buf}. Arguments m_resE {Buf}. Arguments m_nT {Buf}. Arguments m_nres {Buf}.
Arguments m_iT {Buf}. Arguments m_ires {Buf}.
Arguments predict {Buf}. Arguments correct {Buf}. Arguments num_attempt {Buf}.
Arguments sys_err {Buf}. Arguments restore {Buf}. Arguments full_loop {Buf}.
Arguments heun_adaptive {Buf}. Arguments FAccepted {Buf}. Arguments FRaised {Buf}.
Arguments FOutOfFuel {Buf}.
