(** Proofs about the topology analyser: the relations it can emit and the
    invariants of a run. *)
From Coq Require Import Reals ZArith List Bool Lra Lia Arith FunctionalExtensionality Permutation.
From Verif Require Import MNet SNet LNet MTopo STopo LTopo.
Import ListNotations.
Local Open Scope nat_scope.

Definition emit (e : entry) : answer := {| a_out := [e]; a_view := None; a_marks := true |}.

(** What a marked port can have contributed. *)
Inductive shape (N : design) (st : topo) (x : port) : answer -> Prop :=
| sh_pump : kd N (fst x) = KPump -> shape N st x nothing
| sh_same z : fst z = fst x -> valid N z -> is_solved st z = true -> own N z = own N x ->
    kd N (fst x) = KPipe \/ (exists b, kd N (fst x) = KHex b) ->
    shape N st x nothing
| sh_idle z b : fst z = fst x -> valid N z -> is_solved st z = true -> own N z = own N x ->
    kd N (fst x) = KHex b ->
    shape N st x (emit {| tgt := own N x; opid := 0; srcs := [own N x] |})
| sh_view y : kd N (fst x) = KPipe -> solved st (fst x) = [] -> link N x = Some y ->
    valid N y -> is_solved st y = true -> p_pos (cond N st x y) = true ->
    shape N st x {| a_out := []; a_view := Some (addr_of N st y); a_marks := true |}
| sh_pass y : kd N (fst x) <> KPump -> link N x = Some y -> valid N y ->
    is_solved st y = true ->
    (forall z, fst z = fst x -> is_solved st z = true -> own N z <> own N x) ->
    (forall b, kd N (fst x) = KValve b -> snd x = 2) ->
    (kd N (fst x) = KConn -> length (solved st (fst x)) <> 2) ->
    (kd N (fst x) = KPValve -> solved st (fst x) = []) ->
    shape N st x (emit (pass_on (own N x) (cond N st x y)))
| sh_conn : kd N (fst x) = KConn ->
    (forall i, i < 3 -> i <> snd x -> is_solved st (fst x, i) = true) ->
    shape N st x (emit {| tgt := own N x; opid := -1;
      srcs := map (Nat.add (dcell N (fst x))) (filter (fun q => negb (q =? snd x)) [0; 1; 2]) |})
| sh_valve b : kd N (fst x) = KValve b -> snd x < 2 -> is_solved st (fst x, 2) = true ->
    shape N st x (emit {| tgt := own N x; opid := 3;
      srcs := [dcell N (fst x) + 2; fcell N (fst x) + snd x] |})
| sh_pv_branch : kd N (fst x) = KPValve -> snd x < 2 -> is_solved st (fst x, 2) = true ->
    shape N st x (emit {| tgt := own N x; opid := -3;
      srcs := [dcell N (fst x) + 2; fcell N (fst x) + snd x] |})
| sh_pv_ab s : kd N (fst x) = KPValve -> snd x = 2 -> s < 2 -> is_solved st (fst x, s) = true ->
    shape N st x (emit {| tgt := own N x; opid := -4;
      srcs := [dcell N (fst x) + s; fcell N (fst x) + s] |})
| sh_pv_other s : kd N (fst x) = KPValve -> snd x < 2 -> s < 2 -> s <> snd x ->
    is_solved st (fst x, s) = true ->
    shape N st x (emit {| tgt := own N x; opid := 5;
      srcs := [dcell N (fst x) + s; fcell N (fst x) + snd x; fcell N (fst x) + s] |})
| sh_hub b n : kd N (fst x) = KHub b n -> S (length (solved st (fst x))) = n ->
    shape N st x (emit {| tgt := own N x; opid := -1;
      srcs := map (Nat.add (dcell N (fst x))) (solved st (fst x)) |}).

(** Valves are entered through port AB. *)
Definition vinv (N : design) (st : topo) : Prop :=
  forall p b, kd N p = KValve b -> solved st p <> [] -> is_solved st (p, 2) = true.

Lemma solved_in st p i : is_solved st (p, i) = true <-> In i (solved st p).
Proof. unfold is_solved. cbn. apply mem_nat_in. Qed.
Lemma unsolved_in st p i : is_solved st (p, i) = false <-> ~ In i (solved st p).
Proof. unfold is_solved. cbn. apply mem_nat_not. Qed.

Lemma own_flat N p i : cellix (kd N p) i = i -> own N (p, i) = dcell N p + i.
Proof. unfold own, kind_of. cbn. now intros ->. Qed.

Lemma step_shape N st st' : buildable N -> wf N st -> vinv N st -> step N st st' ->
  exists x a, valid N x /\ is_solved st x = false /\ a_marks a = true
              /\ st' = record st x a /\ shape N st x a.
Proof.
  intros B W VI S.
  assert (Len : forall p i, In i (solved st p) -> 1 <= length (solved st p)).
  { intros p i. destruct (solved st p); cbn; [tauto|lia]. }
  inversion S as [s p i root sd a V U K A M E1 E2
                 |s p i j y root sd a V U Vy Sy L J A M E1 E2]; subst; clear S.
  - exists (p, i), a. repeat (split; [assumption|]). split; [reflexivity|].
    unfold ask in A. cbn [fst snd option_map] in A. unfold is_pump in K.
    destruct K as [K|(b & n & K)].
    + destruct (kd N p) eqn:Kp; try discriminate. injection A as <-. now constructor.
    + rewrite K in A. unfold hub_routine in A.
      destruct (Nat.eqb_spec (n - length (solved st p)) 1) as [E|]; [|discriminate].
      injection A as <-. change (shape N st (p, i) (emit {| tgt := dcell N p + i; opid := -1;
        srcs := map (Nat.add (dcell N p)) (solved st p) |})).
      rewrite <- (own_flat N p i) by (now rewrite K).
      apply sh_hub with b n; cbn; [assumption|lia].
  - assert (Hwf := wf_open N st p i W (proj2 V) (proj1 (unsolved_in st p i) U)).
    assert (Hle := wf_length N st p W).
    exists (p, i), a. repeat (split; [assumption|]). split; [reflexivity|].
    destruct V as [V1 V2]. cbn in V1, V2.
    unfold ask in A. cbn [fst snd option_map] in A.
    destruct (kd N p) eqn:K.
    + (* pipe *)
      unfold open in A. rewrite K in A. cbn [nports] in *.
      destruct (Nat.eqb_spec (2 - length (solved st p)) 2) as [E|E].
      * assert (i = j) as -> by (destruct J as [|[J _]]; [assumption|];
          apply solved_in, Len in J; lia).
        assert (Nil : solved st p = []) by (destruct (solved st p); [reflexivity|cbn [length] in E; lia]).
        destruct (p_pos (cond N st (p, j) y)) eqn:Pp; injection A as <-.
        -- apply sh_view; cbn; assumption.
        -- apply sh_pass; cbn; try assumption; try congruence.
           intros [q k] Q. cbn in Q. subst q. intro H. apply solved_in in H. rewrite Nil in H.
           destruct H.
      * injection A as <-. destruct (solved st p) as [|k r] eqn:Sp; [cbn [length] in E; lia|].
        apply sh_same with (z := (p, k)); cbn; auto.
        -- split; [assumption|]. cbn. rewrite K. cbn. destruct (W p) as [_ W2].
           rewrite K in W2. apply W2. rewrite Sp. now left.
        -- apply solved_in. rewrite Sp. now left.
        -- unfold own, kind_of. cbn. now rewrite K.
    + (* pump *) destruct (p =? root); [|discriminate]. injection A as <-. discriminate.
    + (* heat exchanger *)
      destruct (existsb _ _) eqn:Ex.
      * apply existsb_exists in Ex. destruct Ex as (k & Hk & Ek). apply Nat.eqb_eq in Ek.
        assert (Z : valid N (p, k) /\ is_solved st (p, k) = true /\ own N (p, k) = own N (p, i)).
        { split; [split; [assumption|cbn; destruct (W p) as [_ W2]; apply W2; assumption]|].
          split; [now apply solved_in|]. unfold own, kind_of. cbn. rewrite K. cbn [cellix].
          now rewrite Ek. }
        destruct Z as (Z1 & Z2 & Z3).
        destruct copies; injection A as <-.
        -- apply sh_idle with (p, k) true; cbn; auto.
        -- apply sh_same with (p, k); cbn; eauto.
      * injection A as <-.
        assert (i = j) as ->.
        { destruct J as [|(J1 & _ & J2)]; [assumption|]. exfalso.
          cbn in J2. rewrite <- not_true_iff_false in Ex. apply Ex.
          apply existsb_exists. exists j. split; [now apply solved_in|].
          apply negb_false_iff in J2. now rewrite Nat.eqb_sym. }
        apply sh_pass; cbn; try assumption; try congruence.
        intros [q k] Q. cbn in Q. subst q. intros H Ec.
        rewrite <- not_true_iff_false in Ex. apply Ex.
        apply existsb_exists. exists k. split; [now apply solved_in|].
        unfold own, kind_of in Ec. cbn in Ec. rewrite K in Ec. cbn [cellix] in Ec.
        apply Nat.eqb_eq. lia.
    + (* connector *)
      unfold conn_routine in A. cbn [nports] in *.
      destruct (Nat.eqb_spec (3 - length (solved st p)) 1) as [E|E].
      * injection A as <-.
        change (shape N st (p, i) (emit {| tgt := dcell N p + i; opid := -1;
          srcs := map (Nat.add (dcell N p)) (filter (fun q => negb (q =? i)) [0; 1; 2]) |})).
        rewrite <- (own_flat N p i) at 1 by (now rewrite K).
        apply sh_conn; cbn; [assumption|]. intros k Hk Nk. apply solved_in.
        destruct (in_dec Nat.eq_dec k (solved st p)) as [|Nin]; [assumption|exfalso].
        assert (Ls : length (i :: k :: solved st p) <= length (seq 0 3)).
        { destruct (W p) as [W1 W2]. rewrite K in W2. cbn [nports] in W2.
          apply NoDup_incl_length.
          - constructor; [intros [Hx|Hx]; [congruence|now apply unsolved_in in U]|].
            now constructor.
          - intros z [<-|[<-|Hz]]; apply in_seq; try lia. specialize (W2 z Hz). lia. }
        cbn in Ls. lia.
      * injection A as <-.
        assert (i = j) as ->.
        { destruct J as [|(J1 & J2 & _)]; [assumption|]. exfalso.
          unfold breaks, open in J2. rewrite K in J2. cbn [nports] in J2.
          apply Nat.ltb_ge in J2. lia. }
        change (shape N st (p, j) (emit (pass_on (dcell N p + j) (cond N st (p, j) y)))).
        rewrite <- (own_flat N p j) by (now rewrite K).
        apply sh_pass; cbn; try assumption; try congruence; try (intros _; lia).
        intros [q k] Q. cbn in Q. subst q. intros H Ec. unfold own, kind_of in Ec. cbn in Ec.
        rewrite K in Ec. cbn in Ec. assert (k = j) by lia. subst k. congruence.
    + (* valve *)
      destruct (_ && _)%bool; [discriminate|].
      unfold valve_routine in A. cbn [nports] in *.
      destruct (Nat.eqb_spec (3 - length (solved st p)) 3) as [E|E].
      * destruct (Nat.eqb_spec i 2) as [->|]; [|discriminate]. injection A as <-.
        assert (j = 2) as ->.
        { destruct J as [|[J _]]; [congruence|]. apply solved_in, Len in J. lia. }
        change (shape N st (p, 2) (emit (pass_on (dcell N p + 2) (cond N st (p, 2) y)))).
        rewrite <- (own_flat N p 2) by (now rewrite K).
        apply sh_pass; cbn; try assumption; try congruence;
          [|intros _; destruct (solved st p); [reflexivity|cbn [length] in E; lia]..].
        intros [q k] Q. cbn in Q. subst q. intros H _. apply solved_in, Len in H. lia.
      * injection A as <-.
        assert (S2 : is_solved st (p, 2) = true).
        { apply VI with mix; [assumption|]. intro Hn. rewrite Hn in E. cbn [length] in E. lia. }
        assert (i <> 2) by (intros ->; congruence).
        change (shape N st (p, i) (emit {| tgt := dcell N p + i; opid := 3;
          srcs := [dcell N p + 2; fcell N p + i] |})).
        rewrite <- (own_flat N p i) at 1 by (now rewrite K).
        apply sh_valve with mix; cbn; try assumption. lia.
    + (* valve pipe *)
      unfold pvalve_routine in A. cbn [nports] in *.
      destruct (Nat.eqb_spec (3 - length (solved st p)) 3) as [E|E].
      * injection A as <-.
        assert (i = j) as ->.
        { destruct J as [|[J _]]; [assumption|]. apply solved_in, Len in J. lia. }
        change (shape N st (p, j) (emit (pass_on (dcell N p + j) (cond N st (p, j) y)))).
        rewrite <- (own_flat N p j) by (now rewrite K).
        apply sh_pass; cbn; try assumption; try congruence;
          [|intros _; destruct (solved st p); [reflexivity|cbn [length] in E; lia]..].
        intros [q k] Q. cbn in Q. subst q. intros H _. apply solved_in, Len in H. lia.
      * destruct (solved st p) as [|k0 r0] eqn:Sp; [cbn [length] in E; lia|].
        assert (Hk0 : k0 < 3).
        { destruct (W p) as [_ W2]. rewrite K, Sp in W2. apply W2. now left. }
        assert (Sk0 : is_solved st (p, k0) = true) by (apply solved_in; rewrite Sp; now left).
        rewrite <- Sp in *.
        destruct (Nat.ltb_spec i 2) as [Hi|Hi].
        -- destruct (existsb (Nat.eqb 2) (solved st p)) eqn:E2; cbn [andb] in A.
           ++ injection A as <-.
              change (shape N st (p, i) (emit {| tgt := dcell N p + i; opid := -3;
                srcs := [dcell N p + 2; fcell N p + i] |})).
              rewrite <- (own_flat N p i) at 1 by (now rewrite K).
              apply sh_pv_branch; cbn; assumption.
           ++ destruct (Nat.eqb_spec i 2); [lia|]. injection A as <-.
              set (s := if existsb (Nat.eqb 0) (solved st p) then 0 else 1).
              assert (Hs : is_solved st (p, s) = true).
              { unfold s. destruct (existsb (Nat.eqb 0) (solved st p)) eqn:E0; [exact E0|].
                destruct k0 as [|[|[|]]]; try lia; try assumption.
                - change (is_solved st (p, 0) = false) in E0. congruence.
                - change (is_solved st (p, 2) = false) in E2. congruence. }
              change (shape N st (p, i) (emit {| tgt := dcell N p + i; opid := 5;
                srcs := [dcell N p + s; fcell N p + i; fcell N p + s] |})).
              rewrite <- (own_flat N p i) at 1 by (now rewrite K).
              apply sh_pv_other; cbn; try assumption.
              ** unfold s. clear. destruct (existsb _ _); lia.
              ** intro Es. rewrite Es in Hs. congruence.
        -- cbn [andb] in A. destruct (Nat.eqb_spec i 2) as [->|]; [|lia]. injection A as <-.
           set (s := if existsb (Nat.eqb 0) (solved st p) then 0 else 1).
           assert (Hs : is_solved st (p, s) = true).
           { unfold s. destruct (existsb (Nat.eqb 0) (solved st p)) eqn:E0; [exact E0|].
             destruct k0 as [|[|[|]]]; try lia; try assumption.
             - change (is_solved st (p, 0) = false) in E0. congruence.
             - congruence. }
           change (shape N st (p, 2) (emit {| tgt := dcell N p + 2; opid := -4;
                srcs := [dcell N p + s; fcell N p + s] |})).
           rewrite <- (own_flat N p 2) at 1 by (now rewrite K).
           apply sh_pv_ab; cbn; try assumption; [reflexivity|].
           unfold s. clear. destruct (existsb _ _); lia.
    + (* hub *)
      unfold hub_routine in A. injection A as <-. cbn [nports] in *.
      assert (i = j) as ->.
      { destruct J as [|(J1 & J2 & _)]; [assumption|]. exfalso.
        unfold breaks, open in J2. rewrite K in J2. cbn [nports] in J2.
        apply Nat.ltb_ge in J2. lia. }
      change (shape N st (p, j) (emit (pass_on (dcell N p + j) (cond N st (p, j) y)))).
      rewrite <- (own_flat N p j) by (now rewrite K).
      apply sh_pass; cbn; try assumption; try congruence.
      intros [q k] Q. cbn in Q. subst q. intros H Ec. unfold own, kind_of in Ec. cbn in Ec.
      rewrite K in Ec. cbn in Ec. assert (k = j) by lia. subst k. congruence.
Qed.

(** ** Invariants of a run *)
Definition freeport (N : design) (x : port) : Prop :=
  kd N (fst x) = KPump
  \/ (exists b, kd N (fst x) = KHex b) /\ external N (fst x) = true /\ snd x / 2 = 1.
Definition free (N : design) (a : addr) : Prop :=
  exists x, valid N x /\ freeport N x /\ own N x = a.
Definition factor (N : design) (a : addr) : Prop :=
  exists p b, p < nparts N /\ b < 2 /\ a = fcell N p + b.
Definition settled (N : design) (st : topo) (a : addr) : Prop :=
  In a (map tgt (essential (out st))) \/ free N a.

Record inv (N : design) (st : topo) : Prop := {
  i_wf : wf N st;
  i_valve : vinv N st;
  i_view : forall p a, view st p = Some a ->
    kd N p = KPipe /\ solved st p <> [] /\ settled N st a;
  i_form : Forall well_formed (out st);
  i_tgt : forall e, In e (out st) -> exists x, valid N x /\ is_solved st x = true
    /\ tgt e = own N x /\ ~ freeport N x;
  i_src : forall e a, In e (out st) -> In a (srcs e) -> settled N st a \/ factor N a;
  i_dep : dep_ordered (essential (out st));
  i_own : forall x, valid N x -> is_solved st x = true -> view st (fst x) = None ->
    settled N st (own N x);
  i_ext : forall p b, kd N p = KHex b -> external N p = true ->
    is_solved st (p, 2) = true /\ is_solved st (p, 3) = true }.

Lemma valid_cell N x : valid N x -> cellix (kd N (fst x)) (snd x) < ncells (kd N (fst x)).
Proof.
  intros [_ V]. destruct (kd N (fst x)); cbn [nports cellix ncells] in *; try lia.
  apply Nat.div_lt_upper_bound; lia.
Qed.

Lemma own_inj N x y : buildable N -> valid N x -> valid N y -> own N x = own N y ->
  fst x = fst y /\ cellix (kd N (fst x)) (snd x) = cellix (kd N (fst y)) (snd y).
Proof.
  intros B Vx Vy E. unfold own, kind_of in E.
  apply (b_cells N B); try assumption; try apply valid_cell; try assumption; [apply Vx|apply Vy].
Qed.

Lemma freeport_own N x z : buildable N -> valid N x -> valid N z -> freeport N z ->
  own N z = own N x -> freeport N x.
Proof.
  intros B Vx Vz F E. destruct (own_inj N z x B Vz Vx E) as [E1 E2].
  destruct F as [F|((b & F) & F2 & F3)].
  - left. congruence.
  - right. rewrite E1 in *. rewrite F in E2. cbn [cellix] in E2.
    split; [eauto|split; [assumption|congruence]].
Qed.

Lemma own_not_factor N x : buildable N -> valid N x -> ~ factor N (own N x).
Proof.
  intros B V (p & b & Hp & Hb & E). unfold own, kind_of in E.
  apply (b_factors N B p (fst x) b (cellix (kd N (fst x)) (snd x))); try assumption.
  - apply V.
  - now apply valid_cell.
  - now symmetry.
Qed.

Lemma addr_settled N st y : inv N st -> valid N y -> is_solved st y = true ->
  settled N st (addr_of N st y).
Proof.
  intros I V S. unfold addr_of. destruct (view st (fst y)) as [a|] eqn:E.
  - apply (i_view N st I _ _ E).
  - now apply (i_own N st I).
Qed.

(** A part without views: its solved cells are settled. *)
Lemma cell_settled N st p i : inv N st -> kd N p <> KPipe -> p < nparts N ->
  cellix (kd N p) i = i -> is_solved st (p, i) = true -> settled N st (dcell N p + i).
Proof.
  intros I K Hp C S. rewrite <- (own_flat N p i C). apply (i_own N st I); try assumption.
  - split; [assumption|]. destruct (i_wf N st I p) as [_ W]. cbn. apply W. now apply solved_in.
  - destruct (view st _) as [a|] eqn:E; [|reflexivity].
    destruct (i_view N st I _ _ E) as [K' _]. cbn in K'. congruence.
Qed.

Lemma one_inj {A} (a b : A) : [a] = [b] -> a = b.
Proof. congruence. Qed.

Lemma emit_props N st x a e : buildable N -> inv N st -> valid N x -> is_solved st x = false ->
  shape N st x a -> a_out a = [e] ->
  a = emit e /\ tgt e = own N x /\ well_formed e /\ kd N (fst x) <> KPump
  /\ ((idle e = true /\ exists z, fst z = fst x /\ valid N z /\ is_solved st z = true
                                  /\ own N z = own N x /\ srcs e = [own N x]
                                  /\ exists b, kd N (fst x) = KHex b)
      \/ (forall z, valid N z -> is_solved st z = true -> own N z <> own N x)
         /\ (forall s, In s (srcs e) -> settled N st s \/ factor N s)).
Proof.
  intros B I V U Sh E.
  assert (Flat : cellix (kd N (fst x)) (snd x) = snd x ->
                 (forall i, cellix (kd N (fst x)) i = i) ->
                 forall z, valid N z -> is_solved st z = true -> own N z <> own N x).
  { intros _ C z Vz Sz Eo. destruct (own_inj N z x B Vz V Eo) as [E1 E2].
    rewrite E1, !C in E2. destruct x as [p i], z as [q k]. cbn in *. congruence. }
  destruct V as [V1 V2].
  assert (V : valid N x) by (split; assumption).
  assert (Fac : forall b, b < 2 -> factor N (fcell N (fst x) + b)) by (intros b Hb; exists (fst x), b; auto).
  destruct Sh as [K|z Z1 Z2 Z3 Z4 K|z b Z1 Z2 Z3 Z4 K|y K Nil L Vy Sy P|y K L Vy Sy Fr Vv _ _|K H|b K H H2
                 |K H H2|s K H H1 H2|s K H H1 H2 H3|b n K H]; unfold emit, nothing in E; cbn [a_out] in E; try discriminate;
    apply one_inj in E; subst e; (split; [reflexivity|]).
  - split; [reflexivity|]. split; [exact Logic.I|]. split; [congruence|]. left.
    unfold idle. cbn. rewrite Nat.eqb_refl. split; [reflexivity|].
    exists z. repeat (split; [assumption|]). split; [reflexivity|eauto].
  - split; [reflexivity|]. split.
    { unfold pass_on, well_formed; cbn; destruct (negb _); exact Logic.I. }
    split; [assumption|]. right. split.
    + intros z Vz Sz Eo. destruct (own_inj N z x B Vz V Eo) as [E1 _]. now apply (Fr z).
    + intros s [<-|[]]. left. now apply addr_settled.
  - split; [reflexivity|]. split.
    { unfold well_formed; cbn. destruct (snd x) as [|[|[|]]]; cbn; exact Logic.I. }
    split; [congruence|]. right. split; [apply Flat; rewrite K; reflexivity|].
    cbn [srcs]. intros s Hs. left. apply in_map_iff in Hs. destruct Hs as (i & <- & Hi).
    apply filter_In in Hi. destruct Hi as [Hi Ni].
    apply cell_settled; try assumption; rewrite ?K; try congruence; try reflexivity.
    apply H; [cbn in Hi; lia|]. intros ->. rewrite Nat.eqb_refl in Ni. discriminate.
  - split; [reflexivity|]. split; [exact Logic.I|]. split; [congruence|].
    right. split; [apply Flat; rewrite K; reflexivity|].
    intros s [<-|[<-|[]]]; [left; apply cell_settled; rewrite ?K; auto; congruence|right; auto].
  - split; [reflexivity|]. split; [exact Logic.I|]. split; [congruence|].
    right. split; [apply Flat; rewrite K; reflexivity|].
    intros s [<-|[<-|[]]]; [left; apply cell_settled; rewrite ?K; auto; congruence|right; auto].
  - split; [reflexivity|]. split; [exact Logic.I|]. split; [congruence|].
    right. split; [apply Flat; rewrite K; reflexivity|].
    intros s' [<-|[<-|[]]]; [left; apply cell_settled; rewrite ?K; auto; congruence|right; auto].
  - split; [reflexivity|]. split; [exact Logic.I|]. split; [congruence|].
    right. split; [apply Flat; rewrite K; reflexivity|].
    intros s' [<-|[<-|[<-|[]]]]; [left; apply cell_settled; rewrite ?K; auto; congruence|right; auto..].
  - split; [reflexivity|]. split.
    { unfold well_formed; cbn. pose proof (b_hub N B _ _ _ V1 K).
      destruct (solved st (fst x)); [cbn in H; lia|exact Logic.I]. }
    split; [congruence|].
    right. split; [apply Flat; rewrite K; reflexivity|].
    cbn [srcs]. intros s Hs. left. apply in_map_iff in Hs. destruct Hs as (i & <- & Hi).
    apply cell_settled; try assumption; rewrite ?K; try congruence; try reflexivity.
    now apply solved_in.
Qed.

Lemma dep_snoc e : forall l, dep_ordered l -> ~ In (tgt e) (srcs e) ->
  (forall e', In e' l -> ~ In (tgt e) (tgt e' :: srcs e')) -> dep_ordered (l ++ [e]).
Proof.
  induction l as [|e0 l IH]; intros D Ns H.
  - cbn. repeat split; auto; intros e' [].
  - destruct D as (D1 & D2 & D3). cbn [app dep_ordered].
    split; [assumption|]. split.
    + intros e' He'. apply in_app_iff in He'. destruct He' as [He'|[<-|[]]]; [now apply D2|].
      apply H. now left.
    + apply IH; try assumption. intros; apply H; now right.
Qed.

Lemma essential_app l l' : essential (l ++ l') = essential l ++ essential l'.
Proof. apply filter_app. Qed.
Lemma essential_in e l : In e (essential l) -> In e l.
Proof. intro H. now apply filter_In in H. Qed.

(** A cell of an open port is neither computed nor used yet. *)
Lemma not_settled N st x : buildable N -> inv N st -> valid N x -> is_solved st x = false ->
  kd N (fst x) <> KPump ->
  (forall z, valid N z -> is_solved st z = true -> own N z <> own N x) ->
  ~ settled N st (own N x) /\ ~ freeport N x.
Proof.
  intros B I V U NP F.
  assert (NF : ~ freeport N x).
  { intros [H|((b & H) & E & D)]; [contradiction|].
    destruct (i_ext N st I _ _ H E) as [E2 E3].
    destruct V as [_ V2]. rewrite H in V2. cbn in V2.
    assert (snd x = 2 \/ snd x = 3) as [Hi|Hi].
    { destruct (snd x) as [|[|[|[|]]]]; cbn in D; try lia. }
    all: destruct x as [p i]; cbn in *; subst i; congruence. }
  split; [|assumption]. intros [H|H].
  - apply in_map_iff in H. destruct H as (e & E & He). apply essential_in in He.
    destruct (i_tgt N st I e He) as (z & Vz & Sz & Ez & _). apply (F z Vz Sz). congruence.
  - destruct H as (z & Vz & Fz & Ez). apply NF. now apply (freeport_own N x z B V Vz).
Qed.

Lemma inv_step N st st' : buildable N -> inv N st -> step N st st' -> inv N st'.
Proof.
  intros B I S. pose proof (step_wf _ _ _ S (i_wf N st I)) as W'.
  destruct (step_shape N st st' B (i_wf N st I) (i_valve N st I) S) as (x & a & V & U & M & -> & Sh).
  clear S. set (st' := record st x a) in *.
  assert (Mono : forall z, is_solved st z = true -> is_solved st' z = true)
    by (intros z Hz; apply record_solved; auto).
  assert (New : forall z, is_solved st' z = true -> is_solved st z = true \/ z = x)
    by (intros z Hz; apply record_solved in Hz; auto).
  assert (Out : out st' = out st ++ a_out a) by reflexivity.
  assert (SetM : forall s, settled N st s -> settled N st' s).
  { intros s [H|H]; [left|now right]. rewrite Out, essential_app, map_app. apply in_app_iff. now left. }
  assert (Ne : forall p, solved st p <> [] -> solved st' p <> []).
  { intros p Hp. destruct (solved st p) as [|i l] eqn:E; [congruence|].
    apply solved_nonempty with i. apply Mono. apply solved_in. rewrite E. now left. }
  assert (Vin : vinv N st').
  { intros p b K Hp.
    destruct (solved st p) as [|i l] eqn:E.
    - destruct (solved st' p) as [|k l'] eqn:E'; [congruence|].
      assert (Sk : is_solved st' (p, k) = true) by (apply solved_in; rewrite E'; now left).
      destruct (New _ Sk) as [H|H]; [apply solved_in in H; rewrite E in H; destruct H|].
      subst x. apply record_solved; [assumption|]. right. f_equal. symmetry.
      inversion Sh; subst; cbn [fst snd] in *; try congruence.
      + match goal with H : _ \/ _ |- _ => destruct H as [H|[? H]]; congruence end.
      + eauto.
      + match goal with H : is_solved st (p, 2) = true |- _ =>
          apply solved_in in H; rewrite E in H; destruct H end.
    - apply Mono. apply (i_valve N st I p b K). congruence. }
  assert (Ext : forall p b, kd N p = KHex b -> external N p = true ->
    is_solved st' (p, 2) = true /\ is_solved st' (p, 3) = true).
  { intros p b K E. destruct (i_ext N st I p b K E). auto. }
  destruct (a_out a) as [|e es] eqn:AO.
  - (* no relation *)
    assert (Out' : out st' = out st) by (now rewrite Out, app_nil_r).
    assert (SetE : forall s, settled N st' s -> settled N st s)
      by (intros s H; unfold settled in *; now rewrite Out' in H).
    constructor; try assumption; try (rewrite ?Out'; apply I).
    + intros p v Hv. unfold st', record in Hv. cbn [view] in Hv.
      destruct (Nat.eqb_spec p (fst x)) as [->|].
      * destruct (a_view a) as [w|] eqn:AV.
        -- injection Hv as <-. inversion Sh; subst; cbn in AV, AO; try discriminate.
           injection AV as <-. split; [assumption|]. split.
           ++ apply solved_nonempty with (snd x). apply record_solved; [assumption|].
              right. now destruct x.
           ++ apply SetM. now apply addr_settled.
        -- destruct (i_view N st I _ _ Hv) as (A1 & A2 & A3). auto.
      * destruct (i_view N st I _ _ Hv) as (A1 & A2 & A3). auto.
    + intros e He. rewrite Out' in He. destruct (i_tgt N st I e He) as (z & A1 & A2 & A3 & A4).
      exists z. auto.
    + intros e s He Hs. rewrite Out' in He. destruct (i_src N st I e s He Hs); auto.
    + intros z Vz Sz Vw. unfold st', record in Vw. cbn [view] in Vw.
      destruct (New z Sz) as [Oz| ->].
      * apply SetM. apply (i_own N st I z Vz Oz).
        destruct (Nat.eqb_spec (fst z) (fst x)); [|assumption].
        destruct (a_view a); [discriminate|assumption].
      * rewrite Nat.eqb_refl in Vw. destruct (a_view a) eqn:AV; [discriminate|].
        apply SetM. inversion Sh; subst; cbn in AV, AO; try discriminate.
        -- right. exists x. split; [assumption|]. split; [now left|reflexivity].
        -- match goal with H : own N z = own N x |- _ => rewrite <- H end.
           apply (i_own N st I); try assumption. congruence.
  - assert (es = []) as ->.
    { inversion Sh; subst; cbn in AO; now inversion AO. }
    destruct (emit_props N st x a e B I V U Sh AO) as (Ea & Et & Ef & NP & Hc).
    assert (Av : a_view a = None) by (now rewrite Ea).
    assert (Vw : forall q, view st' q = view st q).
    { intro q. unfold st', record. cbn [view]. rewrite Av. now destruct (q =? fst x). }
    assert (Sx : is_solved st' x = true) by (apply record_solved; auto).
    assert (NF : ~ freeport N x).
    { destruct Hc as [(_ & z & Z1 & Z2 & Z3 & Z4 & Z5 & b & K)|[Hc _]].
      - intros [H|((b' & H) & E & D)]; [contradiction|].
        destruct (i_ext N st I _ _ H E) as [E2 E3].
        destruct V as [_ V2]. rewrite H in V2. cbn in V2.
        assert (snd x = 2 \/ snd x = 3) as [Hi|Hi].
        { destruct (snd x) as [|[|[|[|]]]]; cbn in D; try lia. }
        all: destruct x as [p i]; cbn in *; subst i; congruence.
      - apply (not_settled N st x); assumption. }
    assert (Own : forall z b, fst z = fst x -> valid N z -> is_solved st z = true ->
                  kd N (fst x) = KHex b -> settled N st (own N z)).
    { intros z b Z1 Z2 Z3 K. apply (i_own N st I); try assumption.
      destruct (view st (fst z)) as [v|] eqn:Ev; [|reflexivity].
      destruct (i_view N st I _ _ Ev) as [K' _]. congruence. }
    constructor; try assumption.
    + intros p v Hv. rewrite Vw in Hv. destruct (i_view N st I _ _ Hv) as (A1 & A2 & A3). auto.
    + rewrite Out. apply Forall_app. split; [apply I|repeat constructor; assumption].
    + intros e' He'. rewrite Out in He'. apply in_app_iff in He'. destruct He' as [He'|[<-|[]]].
      * destruct (i_tgt N st I e' He') as (z & A1 & A2 & A3 & A4). exists z. auto.
      * exists x. auto.
    + intros e' s He' Hs. rewrite Out in He'. apply in_app_iff in He'.
      destruct He' as [He'|[<-|[]]].
      * destruct (i_src N st I e' s He' Hs); auto.
      * destruct Hc as [(_ & z & Z1 & Z2 & Z3 & Z4 & Z5 & b & K)|[_ Hs']].
        -- rewrite Z5 in Hs. destruct Hs as [<-|[]]. left. apply SetM. rewrite <- Z4.
           now apply Own with b.
        -- destruct (Hs' s Hs); auto.
    + rewrite Out, essential_app. unfold essential at 2. cbn [filter].
      destruct (idle e) eqn:Id; cbn [negb]; [rewrite app_nil_r; apply I|].
      destruct Hc as [(Hc & _)|[Fr Hs]]; [congruence|].
      destruct (not_settled N st x B I V U NP Fr) as [NS _].
      apply dep_snoc; [apply I| |].
      * rewrite Et. intro H. destruct (Hs _ H) as [H'|H']; [contradiction|].
        now apply (own_not_factor N x B V).
      * intros e' He' [H|H]; rewrite Et in H.
        -- apply NS. left. rewrite <- H. now apply in_map.
        -- apply essential_in in He'. destruct (i_src N st I e' _ He' H) as [H'|H']; [contradiction|].
           now apply (own_not_factor N x B V).
    + intros z Vz Sz Hv. rewrite Vw in Hv. destruct (New z Sz) as [Oz| ->].
      * apply SetM. now apply (i_own N st I).
      * destruct (idle e) eqn:Id.
        -- destruct Hc as [(_ & w & Z1 & Z2 & Z3 & Z4 & Z5 & b & K)|[Fr Hs]].
           ++ apply SetM. rewrite <- Z4. apply Own with b; assumption.
           ++ exfalso. destruct (not_settled N st x B I V U NP Fr) as [NS _].
              unfold idle in Id. destruct (srcs e) as [|s [|]] eqn:Es; try discriminate.
              apply andb_prop in Id. destruct Id as [_ Id]. apply Nat.eqb_eq in Id.
              destruct (Hs s (or_introl eq_refl)) as [H|H]; rewrite Id, Et in H; [contradiction|].
              now apply (own_not_factor N x B V).
        -- left. rewrite Out, essential_app, map_app. apply in_app_iff. right.
           unfold essential. cbn [filter]. rewrite Id. left. assumption.
Qed.

Lemma inv_start N : buildable N -> inv N (start N).
Proof.
  intro B. constructor.
  - apply start_wf.
  - intros p b K H. unfold start in H. cbn in H. rewrite K in H. congruence.
  - intros p a H. discriminate.
  - constructor.
  - intros e [].
  - intros e a [].
  - exact I.
  - intros x V S _. right. exists x. split; [assumption|]. split; [|reflexivity].
    destruct x as [p i]. apply solved_in in S. unfold start in S. cbn in S. unfold freeport. cbn.
    destruct (kd N p); try destruct S. destruct (external N p) eqn:E; [|destruct S].
    right. split; [eauto|]. split; [reflexivity|]. destruct S as [<-|[<-|[]]]; reflexivity.
  - intros p b K E. unfold is_solved, start. cbn. rewrite K, E. auto.
Qed.

Lemma inv_steps N st st' : buildable N -> inv N st -> steps N st st' -> inv N st'.
Proof. intros B I S. revert I. induction S; [tauto|]. intro. apply IHS. eapply inv_step; eauto. Qed.

(** ** Self copies change nothing *)
Lemma run_essential : forall l m, run_net l m = run_net (essential l) m.
Proof.
  induction l as [|e l IH]; intro m; [reflexivity|]. unfold essential. cbn [run_net filter].
  destruct (idle e) eqn:E; cbn [negb].
  - assert (exec e m = Some m) as ->; [|apply IH].
    unfold idle in E. destruct e as [t o s]. cbn in E. destruct s as [|a [|b s]]; try discriminate.
    apply andb_prop in E. destruct E as [E1 E2]. apply Z.eqb_eq in E1. apply Nat.eqb_eq in E2.
    subst. unfold exec. cbn. f_equal. extensionality b. unfold upd.
    destruct (Nat.eqb_spec b t); congruence.
  - cbn [run_net]. destruct (exec e m); [apply IH|reflexivity].
Qed.

Lemma idle_sat m e : idle e = true -> satisfies m e.
Proof.
  unfold idle. destruct e as [t o s]. cbn. destruct s as [|a [|b s]]; try discriminate.
  intro E. apply andb_prop in E. destruct E as [E1 E2]. apply Z.eqb_eq in E1. apply Nat.eqb_eq in E2.
  subst. now constructor.
Qed.

Lemma all_sat_essential m l : all_sat m (essential l) -> all_sat m l.
Proof.
  intros H e He. destruct (idle e) eqn:E; [now apply idle_sat|]. apply H.
  apply filter_In. now rewrite E.
Qed.

Lemma Forall_essential P l : Forall P l -> Forall P (essential l).
Proof. intro H. rewrite Forall_forall in *. intros e He. apply H. now apply essential_in. Qed.
