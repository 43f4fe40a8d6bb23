From Coq Require Import Reals List Arith Lia Lra Psatz.
From Verif Require Import MSolver LSolver MHeun SHeun LHeun LHeunOrder.
Import ListNotations.
Open Scope R_scope.

(** Concrete system: one explicit part with two cells heated at constant rates which reports
    instability for steps above 0.5, one pump like part, two ports.  The memory contains
    junk from earlier steps. *)
Definition ex_slope : slope := fun _ _ _ => [1; 2].
Definition ex_part : epart unit :=
  mkEpart (fun h ports T _ =>
    (ex_slope h ports T, if Rlt_dec 0.5 h then Some 4 else None, tt)) [1; 1].
Definition ex_model : model unit :=
  mkModel [ex_part] [fun _ ports => [nth 0 ports 0]] []
          [(0%nat, SrcE 0 1); (1%nat, SrcN 0 0)] 1e-3 1e-6 2.
Definition ex_mem : mem unit :=
  mkMem [50; 20] [] [[50; 40]] [] [[7; 7]] [[0; 0]] [[0; 0]] [tt] [[0; 0]]
        [[0]] [[0]] [] [].

Lemma ex_pure : Forall2 pure_part (mo_e ex_model) [ex_slope].
Proof. repeat constructor. Qed.

Lemma ex_shaped : shaped ex_model ex_mem.
Proof. unfold shaped; cbn. repeat split; reflexivity. Qed.

(** The first attempt (step 1) is unstable, the second is accepted. *)
Lemma ex_accepted : exists u m' s',
  heun_adaptive ex_model cfg_default 2 ex_mem (init_sst cfg_default) = FAccepted u m' s' /\
  0 < u < 0.5.
Proof.
  unfold heun_adaptive, enter, init_sst.
  set (m0 := mkMem _ _ _ _ _ _ _ _ _ _ _ _ _).
  assert (E1 : exists m1, num_attempt ex_model 1 m0 = (m1, OUnstable 4) /\
     m_prevE m1 = [[50; 40]] /\ m_bkp m1 = [50; 20] /\ m_prevI m1 = [] /\
     exists a b c d e f, m_T m1 = [a] /\ m_df0 m1 = [b] /\ m_df1 m1 = [c] /\
       m_buf m1 = [d] /\ m_resE m1 = [e] /\ m_nT m1 = [f]).
  { unfold num_attempt. cbn. destruct (Rlt_dec 0.5 1) as [_|N]; [|exfalso; lra].
    eexists. split; [reflexivity|]. cbn. repeat split. repeat eexists. }
  destruct E1 as (m1&E1&P1&P2&P3&a&b&c&d&e&f&Q1&Q2&Q3&Q4&Q5&Q6).
  cbn [full_loop s_h]. rewrite E1.
  unfold attempt at 1. cbn [breach s_h s_vN s_mf s_cnt s_ssf fst snd Nat.eqb].
  cbn [full_loop s_h].
  match goal with |- context [num_attempt _ ?x _] => set (h := x) end.
  assert (Hh : h = 0.21375) by (unfold h; lra).
  assert (E2 : exists m2, num_attempt ex_model h (restore m1) = (m2, OStable [] (ENum 0))).
  { unfold num_attempt, restore. cbn [m_ports m_prevE m_T m_df0 m_buf m_bkp m_df1 m_resE
      m_prevI m_nT m_nres m_iT m_ires]. rewrite P1, P2, P3, Q1, Q2, Q3, Q4, Q5.
    cbn. destruct (Rlt_dec 0.5 h) as [N|_]; [exfalso; lra|]. cbn.
    destruct (Rlt_dec 0.5 h) as [N|_]; [exfalso; lra|].
    eexists. f_equal. f_equal. unfold sys_err. f_equal.
    replace (50 + h / 2 * (1 + 1) - (50 + h * 1)) with 0 by field.
    replace (40 + h / 2 * (2 + 2) - (40 + h * 2)) with 0 by field.
    transitivity (sqrt 0); [f_equal|apply sqrt_0]. unfold Rdiv. rewrite !Rmult_0_l. cbn. lra. }
  destruct E2 as [m2 E2]. rewrite E2.
  unfold attempt. cbn [s_h s_vN s_mf s_cnt s_ssf fold_left fst snd].
  destruct (Rlt_dec 0 0) as [N|_]; [exfalso; lra|].
  destruct (Req_EM_T 0 0) as [_|N]; [|exfalso; lra].
  eexists; eexists; eexists. split; [reflexivity|]. fold h. lra.
Qed.
