(** C191: the databases are returned under their names. *)
From Coq Require Import String Ascii List Bool Lia.
From Verif Require Import MDbs.
Import ListNotations.
Open Scope string_scope.

(** ** Strings *)
Lemma app_assoc_s a b c : (a ++ b) ++ c = a ++ (b ++ c).
Proof. induction a as [|x a IH]; cbn; [reflexivity|now rewrite IH]. Qed.
Lemma app_nil_s a : a ++ EmptyString = a.
Proof. induction a as [|x a IH]; cbn; [reflexivity|now rewrite IH]. Qed.
Lemma has_app c a b : has c (a ++ b) = has c a || has c b.
Proof. induction a as [|x a IH]; cbn; [reflexivity|now rewrite IH, orb_assoc]. Qed.
Lemma split_ne c s : split c s <> [].
Proof. destruct s as [|a r]; cbn; [discriminate|]. destruct (Ascii.eqb a c); [discriminate|]. destruct (split c r); discriminate. Qed.
Lemma has_cons c a s : has c (String a s) = Ascii.eqb a c || has c s.
Proof. reflexivity. Qed.
Lemma split_none c s : has c s = false -> split c s = [s].
Proof.
  induction s as [|a r IH]; cbn; [reflexivity|]. intro H. apply orb_false_iff in H as [H1 H2]. rewrite H1, (IH H2). reflexivity.
Qed.
Lemma split_at c a b : split c (a ++ String c b) = (removelast (split c a) ++ [last (split c a) EmptyString] ++ split c b)%list.
Proof.
  induction a as [|x a IH]; cbn.
  - rewrite Ascii.eqb_refl. reflexivity.
  - destruct (Ascii.eqb x c) eqn:E.
    + rewrite IH. pose proof (split_ne c a). destruct (split c a) as [|h t]; [congruence|]. reflexivity.
    + rewrite IH. pose proof (split_ne c a). destruct (split c a) as [|h t]; [congruence|]. destruct t as [|h2 t]; reflexivity.
Qed.
Lemma last_split c a b : has c b = false -> last (split c (a ++ String c b)) EmptyString = b.
Proof.
  intro H. rewrite split_at, (split_none c b H). rewrite app_assoc. apply last_last.
Qed.
Lemma hd_split c a b : has c a = false -> hd EmptyString (split c (a ++ String c b)) = a.
Proof. intro H. rewrite split_at, (split_none c a H). reflexivity. Qed.
Lemma strip_iff p s n : strip p s = Some n <-> s = p ++ n.
Proof.
  revert s; induction p as [|a p IH]; intro s; cbn; [split; [now intros [= ->]|now intros ->]|].
  destruct s as [|b s]; [split; discriminate|]. destruct (Ascii.eqb a b) eqn:E.
  - apply Ascii.eqb_eq in E. subst b. rewrite IH. split; [now intros ->|now intros [= ->]].
  - split; [discriminate|]. intros [= -> _]. now rewrite Ascii.eqb_refl in E.
Qed.
Lemma ends_iff suf s : ends suf s = true <-> exists k, s = k ++ suf.
Proof.
  induction s as [|a r IH]; cbn [ends].
  - destruct suf as [|x suf]; cbn; [split; [intros _; exists EmptyString; reflexivity|reflexivity]|].
    split; [discriminate|]. intros [[|b k] H]; discriminate.
  - rewrite orb_true_iff, IH, String.eqb_eq. split.
    + intros [H|[k H]]; [exists EmptyString; exact H|exists (String a k); cbn; congruence].
    + intros [[|b k] H]; [left; exact H|]. right. exists k. cbn in H. congruence.
Qed.
Lemma app_inj_l p a b : p ++ a = p ++ b -> a = b.
Proof. induction p as [|x p IH]; cbn; [tauto|intros [= H]; auto]. Qed.
Lemma len_app a b : String.length (a ++ b) = (String.length a + String.length b)%nat.
Proof. induction a as [|x a IH]; cbn; [reflexivity|now rewrite IH]. Qed.
Lemma app_inj_r a b s : a ++ s = b ++ s -> a = b.
Proof.
  revert b; induction a as [|x a IH]; intros [|y b] H; cbn in H; [reflexivity| | |].
  - apply (f_equal String.length) in H. cbn in H. rewrite len_app in H. lia.
  - apply (f_equal String.length) in H. cbn in H. rewrite len_app in H. lia.
  - injection H as -> H. f_equal. apply IH, H.
Qed.
Lemma globbed_iff sep pth file : globbed sep pth file = true <->
  exists n, file = pth ++ String sep n /\ ends ".pkl" n = true /\ has sep n = false /\ hidden n = false.
Proof.
  unfold globbed. destruct (strip (pth ++ String sep EmptyString) file) as [n|] eqn:E.
  - apply strip_iff in E. rewrite app_assoc_s in E. cbn in E. subst file.
    rewrite !andb_true_iff, !negb_true_iff. split; [intros [[A B] C]; exists n; auto|].
    intros (m & Em & A & B & C). apply app_inj_l in Em. injection Em as <-. auto.
  - split; [discriminate|]. intros (n & -> & _).
    assert (K : strip (pth ++ String sep EmptyString) (pth ++ String sep n) = Some n) by (apply strip_iff; now rewrite app_assoc_s).
    congruence.
Qed.

(** ** The dict *)
Section Dict.
Context {D : Type}.
Lemma fold_some (l : list (string * D)) d0 k d :
  fold_left (fun dbs f => upd dbs (db_name (fst f)) (snd f)) l d0 k = Some d ->
  (exists f, In f l /\ db_name (fst f) = k /\ snd f = d) \/ d0 k = Some d.
Proof.
  revert d0; induction l as [|f l IH]; intros d0 H; cbn in H; [right; exact H|].
  destruct (IH _ H) as [(g & I1 & I2)|U]; [left; exists g; split; [right; exact I1|exact I2]|].
  unfold upd in U. destruct (String.eqb k (db_name (fst f))) eqn:E; [|right; exact U].
  left. exists f. apply String.eqb_eq in E. split; [left; reflexivity|]. split; [congruence|congruence].
Qed.
Lemma fold_reach (l : list (string * D)) k : (exists f, In f l /\ db_name (fst f) = k) ->
  fold_left (fun dbs f => upd dbs (db_name (fst f)) (snd f)) l (fun _ => None) k <> None.
Proof.
  intro H. assert (GEN : forall d0, (exists f, In f l /\ db_name (fst f) = k) \/ d0 k <> None ->
    fold_left (fun dbs (f : string * D) => upd dbs (db_name (fst f)) (snd f)) l d0 k <> None).
  { clear. induction l as [|f l IH]; intros e He; cbn; [destruct He as [(f & [] & _)|He]; exact He|].
    apply IH. destruct He as [(g & [<-|I] & E)|He].
    - right. unfold upd. rewrite E, String.eqb_refl. discriminate.
    - left. exists g. auto.
    - right. unfold upd. destruct (String.eqb k (db_name (fst f))); [discriminate|exact He]. }
  apply GEN. left. exact H.
Qed.
Lemma fold_in (l : list (string * D)) k d :
  (forall f g, In f l -> In g l -> db_name (fst f) = db_name (fst g) -> snd f = snd g) ->
  (exists f, In f l /\ db_name (fst f) = k /\ snd f = d) ->
  fold_left (fun dbs f => upd dbs (db_name (fst f)) (snd f)) l (fun _ => None) k = Some d.
Proof.
  intros U (f & I & E & Ed).
  pose proof (fold_reach l k (ex_intro _ f (conj I E))) as GEN.
  destruct (fold_left _ l _ k) as [d'|] eqn:F; [|congruence].
  destruct (fold_some _ _ _ _ F) as [(h & I2 & E2 & Ed2)|Q]; [|discriminate].
  f_equal. rewrite <- Ed, <- Ed2. apply U; [exact I2|exact I|congruence].
Qed.
End Dict.

(** Name of a pickle in a folder on Windows. *)
Lemma name_win pth k : has backslash k = false -> has dot k = false -> db_name (pth ++ String backslash (k ++ ".pkl")) = k.
Proof.
  intros B Dd. unfold db_name. rewrite last_split; [|now rewrite has_app, B]. exact (hd_split dot k "pkl" Dd).
Qed.
(** A path without backslash keeps its folder. *)
Lemma name_posix pth k : has backslash pth = false -> has dot pth = false -> has backslash k = false -> has dot k = false ->
  db_name (pth ++ String "/" (k ++ ".pkl")) = pth ++ String "/" k.
Proof.
  intros B1 D1 B2 D2. unfold db_name.
  rewrite (split_none backslash) by (rewrite has_app, has_cons, has_app, B1, B2; reflexivity). cbn [last].
  replace (pth ++ String "/" (k ++ ".pkl")) with ((pth ++ String "/" k) ++ String dot "pkl") by (rewrite app_assoc_s; reflexivity).
  apply hd_split. rewrite has_app; cbn. now rewrite D1, D2.
Qed.

(** ** The claims *)

(** File [k].pkl with content [d] lies in folder [pth]. *)
Definition lies {D} (sep : ascii) (pth k : string) (d : D) (fs : list (string * D)) : Prop := In (pth ++ String sep (k ++ ".pkl"), d) fs.
(** Names of the pickles in the folder have no further dot and are not empty. *)
Definition plain_names {D} (sep : ascii) (pth : string) (fs : list (string * D)) : Prop :=
  forall n d, In (pth ++ String sep (n ++ ".pkl"), d) fs -> has sep n = false -> has dot n = false /\ n <> EmptyString.

(** Windows, any folder: exactly the pickles of the folder, each under the name of its file, with its content. *)
Theorem C191_windows : forall D (pth : string) (fs : list (string * D)) k d, NoDup (map fst fs) -> plain_names backslash pth fs ->
  (import_all backslash pth fs k = Some d <-> lies backslash pth k d fs /\ has backslash k = false).
Proof.
  intros D pth fs k d ND PN.
  assert (KEY : forall f, In f (filter (fun f => globbed backslash pth (fst f)) fs) ->
    exists n, fst f = pth ++ String backslash (n ++ ".pkl") /\ has backslash n = false /\ has dot n = false /\ db_name (fst f) = n).
  { intros [p0 c] I. apply filter_In in I as [I G]. cbn [fst] in *. apply globbed_iff in G as (m & -> & Ee & Hs & Hh).
    apply ends_iff in Ee as [n ->]. rewrite has_app in Hs. apply orb_false_iff in Hs as [Hs _]. destruct (PN n c I Hs) as [Hd _].
    exists n. split; [reflexivity|]. split; [exact Hs|]. split; [exact Hd|]. apply name_win; assumption. }
  assert (FUN : forall p0 c c', In (p0, c) fs -> In (p0, c') fs -> c = c').
  { clear -ND. intros p0 c c'. induction fs as [|[q x] l IH]; cbn; [tauto|]. inversion ND as [|? ? N1 N2]; subst.
    intros [[= <- <-]|I1] [[= E2]|I2]; try congruence.
    - exfalso. apply N1. apply (in_map fst) in I2. exact I2.
    - exfalso. subst. apply N1. apply (in_map fst) in I1. exact I1.
    - apply IH; assumption. }
  split.
  - intro H. destruct (fold_some _ _ _ _ H) as [([p0 c] & I & E1 & E2)|Q]; [|discriminate].
    destruct (KEY _ I) as (n & F1 & F2 & F3 & F4). cbn [fst snd] in *. subst c. rewrite F4 in E1. subst n.
    apply filter_In in I as [I _]. split; [unfold lies; rewrite <- F1; exact I|exact F2].
  - intros [L Hk]. destruct (PN k d L Hk) as [Hd Hne].
    apply fold_in.
    + intros [p1 c1] [p2 c2] I1 I2 E. destruct (KEY _ I1) as (n1 & F1 & _ & _ & F4). destruct (KEY _ I2) as (n2 & G1 & _ & _ & G4).
      rewrite F4, G4 in E. cbn [fst snd] in *. subst n2. apply filter_In in I1 as [I1 _]. apply filter_In in I2 as [I2 _].
      apply (FUN p1 c1 c2 I1). rewrite F1, <- G1. exact I2.
    + exists (pth ++ String backslash (k ++ ".pkl"), d). split; [|split; [apply name_win; assumption|reflexivity]].
      apply filter_In. split; [exact L|]. apply globbed_iff. exists (k ++ ".pkl"). split; [reflexivity|]. split; [apply ends_iff; exists k; reflexivity|].
      split; [now rewrite has_app, Hk|]. destruct k as [|a k]; [congruence|]. cbn in Hd |- *. apply orb_false_iff in Hd. apply Hd.
Qed.
Print Assumptions C191_windows.

(** Elsewhere the standard databases are not found: whatever lies in the folder data_tables of the package, the dict is empty,
    unless some path of the system holds a backslash. *)
Theorem C191_posix_refuted : forall D (pkg : string) (fs : list (string * D)), (forall f, In f fs -> has backslash (fst f) = false) ->
  forall k, std_import "/" pkg fs k = None.
Proof.
  intros D pkg fs H k. unfold std_import, import_all.
  destruct (fold_left _ _ _ k) as [d|] eqn:F; [|reflexivity].
  destruct (fold_some _ _ _ _ F) as [([p0 c] & I & _)|Q]; [|discriminate].
  apply filter_In in I as [I G]. cbn [fst] in G. apply globbed_iff in G as (n & E & _). specialize (H _ I). cbn [fst] in H. subst p0.
  exfalso. unfold std_folder in H. rewrite has_app in H. apply orb_false_iff in H as [H _]. rewrite has_app in H. apply orb_false_iff in H as [_ H].
  cbn in H. discriminate.
Qed.
Print Assumptions C191_posix_refuted.

(** Databases of a folder chosen in the dialog are found there, but under their paths: no key is the name of a file. *)
Theorem C191_dialog_refuted : forall D (pth : string) (fs : list (string * D)), plain_names "/" pth fs ->
  has backslash pth = false -> has dot pth = false -> (forall f, In f fs -> has backslash (fst f) = false) ->
  forall k d, lies "/" pth k d fs -> has "/" k = false ->
  import_all "/" pth fs k = None /\ exists d', import_all "/" pth fs (pth ++ String "/" k) = Some d'.
Proof.
  intros D pth fs PN B Dd HB k d L Hk. destruct (PN k d L Hk) as [Hd Hne].
  assert (KEY : forall f, In f (filter (fun f => globbed "/" pth (fst f)) fs) -> exists n, db_name (fst f) = pth ++ String "/" n).
  { intros [p0 c] I. apply filter_In in I as [I G]. cbn [fst] in *. apply globbed_iff in G as (m & -> & Ee & Hs & Hh).
    apply ends_iff in Ee as [n ->]. rewrite has_app in Hs. apply orb_false_iff in Hs as [Hs _]. destruct (PN n c I Hs) as [Hdn _].
    exists n. apply name_posix; try assumption. specialize (HB _ I). cbn [fst] in HB. rewrite has_app in HB. apply orb_false_iff in HB as [_ HB].
    cbn in HB. rewrite has_app in HB. apply orb_false_iff in HB. apply HB. }
  split.
  - destruct (import_all "/" pth fs k) as [x|] eqn:F; [|reflexivity].
    destruct (fold_some _ _ _ _ F) as [(f & I & E & _)|Q]; [|discriminate]. destruct (KEY f I) as [n En]. rewrite En in E. subst k.
    rewrite has_app in Hk. apply orb_false_iff in Hk as [_ Hk]. cbn in Hk. discriminate.
  - destruct (import_all "/" pth fs (pth ++ String "/" k)) as [x|] eqn:F; [exists x; reflexivity|]. exfalso.
    revert F. apply fold_reach. exists (pth ++ String "/" (k ++ ".pkl"), d). split.
    + apply filter_In. split; [exact L|]. apply globbed_iff. exists (k ++ ".pkl"). split; [reflexivity|]. split; [apply ends_iff; exists k; reflexivity|].
      split; [now rewrite has_app, Hk|]. destruct k as [|a k]; [congruence|]. cbn in Hd |- *. apply orb_false_iff in Hd. apply Hd.
    + apply name_posix; try assumption. specialize (HB _ L). cbn [fst] in HB. rewrite has_app in HB. apply orb_false_iff in HB as [_ HB].
      cbn in HB. rewrite has_app in HB. apply orb_false_iff in HB. apply HB.
Qed.
Print Assumptions C191_dialog_refuted.

(** Names with a further dot: of two databases one is lost, on Windows too. *)
Theorem C191_dots_refuted : forall D (pth n v w : string) (d e : D), has backslash n = false -> has dot n = false -> n <> EmptyString ->
  has backslash v = false -> has backslash w = false ->
  let fs := [(pth ++ String backslash (n ++ String dot (v ++ ".pkl")), d); (pth ++ String backslash (n ++ String dot (w ++ ".pkl")), e)] in
  forall k, import_all backslash pth fs k = if String.eqb k n then Some e else None.
Proof.
  intros D pth n v w d e B Dn Hne Bv Bw fs k. unfold import_all, fs.
  assert (G : forall u, has backslash u = false -> globbed backslash pth (pth ++ String backslash (n ++ String dot (u ++ ".pkl"))) = true).
  { intros u Bu. apply globbed_iff. exists (n ++ String dot (u ++ ".pkl")). split; [reflexivity|].
    split; [apply ends_iff; exists (n ++ String dot u); rewrite app_assoc_s; reflexivity|].
    split; [rewrite has_app, has_cons, has_app, B, Bu; reflexivity|]. destruct n as [|a n]; [congruence|]. cbn in Dn |- *. apply orb_false_iff in Dn. apply Dn. }
  assert (N : forall u, has backslash u = false -> db_name (pth ++ String backslash (n ++ String dot (u ++ ".pkl"))) = n).
  { intros u Bu. unfold db_name. rewrite last_split by (rewrite has_app, has_cons, has_app, B, Bu; reflexivity). apply hd_split, Dn. }
  cbn [filter fst]. rewrite !G by assumption. cbn [fold_left fst snd]. rewrite !N by assumption. unfold upd. destruct (String.eqb k n); reflexivity.
Qed.
Print Assumptions C191_dots_refuted.

(** The package with three of its tables, installed under Windows and under another system. *)
Example C191_ex : let win := [("C:\multisim\data_tables\pipe_specs.pkl", 1); ("C:\multisim\simenv.py", 2); ("C:\multisim\data_tables\material_props.pkl", 3);
    ("C:\multisim\data_tables\material_props.xlsx", 4)]%nat in
  std_import backslash "C:\multisim" win "pipe_specs" = Some 1%nat /\ std_import backslash "C:\multisim" win "material_props" = Some 3%nat /\
  std_import backslash "C:\multisim" win "simenv" = None /\
  std_import "/" "/opt/multisim" [("/opt/multisim/data_tables/pipe_specs.pkl", 1%nat)] "pipe_specs" = None /\
  import_all "/" "/data" [("/data/pipe_specs.pkl", 1%nat)] "pipe_specs" = None /\
  import_all "/" "/data" [("/data/pipe_specs.pkl", 1%nat)] "/data/pipe_specs" = Some 1%nat.
Proof. repeat split; reflexivity. Qed.
Example C191_ex_hyp : let win := [("C:\t\pipe_specs.pkl", 1); ("C:\t\material_props.pkl", 3)]%nat in
  NoDup (map fst win) /\ plain_names backslash "C:\t" win.
Proof.
  split; [repeat constructor; cbn; intuition discriminate|].
  intros n d I Hs. destruct I as [[= E _]|[[= E _]|[]]].
  - change ("pipe_specs" ++ ".pkl" = n ++ ".pkl") in E. apply app_inj_r in E. subst n. split; [reflexivity|discriminate].
  - change ("material_props" ++ ".pkl" = n ++ ".pkl") in E. apply app_inj_r in E. subst n. split; [reflexivity|discriminate].
Qed.
