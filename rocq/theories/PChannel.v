(** Properties of the search for flow channels by name. *)
From Coq Require Import String Ascii List Bool.
From Verif Require Import MChannel.
Import ListNotations.
Local Open Scope string_scope.

(** Channel names and port names are free of the separator. *)
Fixpoint has_char (c : ascii) (s : string) : bool :=
  match s with EmptyString => false | String d r => Ascii.eqb c d || has_char c r end.

Lemma prefix_app sub a b : has_char ";" sub = false ->
  prefix sub (a ++ String ";" b) = prefix sub a.
Proof.
  revert a. induction sub as [|c sub IH]; intros a H; [destruct a; reflexivity|].
  cbn [has_char] in H. apply orb_false_iff in H. destruct H as [H1 H2].
  destruct a as [|d a].
  - cbn. destruct (ascii_dec c ";") as [->|]; [discriminate|reflexivity].
  - cbn. destruct (ascii_dec c d); [apply (IH a H2)|reflexivity].
Qed.

Lemma contains_full sub a b : sub <> "" -> has_char ";" sub = false ->
  contains sub (full_name a b) = contains sub a || contains sub b.
Proof.
  intros N H. unfold full_name.
  induction a as [|c a IH].
  - destruct sub as [|d sub]; [congruence|]. cbn [append]. cbn [contains].
    cbn [has_char] in H. apply orb_false_iff in H. destruct H as [H1 H2].
    replace (prefix (String d sub) (String ";" b)) with false; [reflexivity|].
    cbn. destruct (ascii_dec d ";") as [->|]; [discriminate|reflexivity].
  - change (String c a ++ ";" ++ b) with (String c (a ++ String ";" b)).
    change (a ++ String ";" b) with (a ++ ";" ++ b). cbn [contains].
    rewrite IH. change (String c (a ++ ";" ++ b)) with (String c a ++ String ";" b).
    rewrite (prefix_app sub (String c a) b H). now rewrite orb_assoc.
Qed.

(** C86: the channel by which a heat exchanger is entered is the one of the port
    reached, unless the name of the part contains the second channel's name; then the
    ports of the first channel are never treated. *)
Theorem C86_channel_partial : forall part port, In port hex_ports ->
  (entered_channel hex_channels part port = own_channel hex_channels port
   <-> ~ (contains "dmd" part = true /\ contains "sup" port = true)).
Proof.
  intros part port H. unfold entered_channel, find_channel, hex_channels. cbn [fold_left].
  rewrite !contains_full by (discriminate || reflexivity).
  cbn in H. repeat destruct H as [<-|H]; [..|destruct H];
    destruct (contains "sup" part), (contains "dmd" part); vm_compute;
    split; intros; try congruence; try tauto; try (exfalso; tauto); intuition discriminate.
Qed.

Theorem C86_condensing_partial : forall part port, In port cond_ports ->
  (entered_channel cond_channels part port = own_channel cond_channels port
   <-> ~ (contains "fluegas" part = true /\ contains "water" port = true)).
Proof.
  intros part port H. unfold entered_channel, find_channel, cond_channels. cbn [fold_left].
  rewrite !contains_full by (discriminate || reflexivity).
  cbn in H. repeat destruct H as [<-|H]; [..|destruct H];
    destruct (contains "water" part), (contains "fluegas" part); vm_compute;
    split; intros; try congruence; try tauto; try (exfalso; tauto); intuition discriminate.
Qed.

(** The code violates C86: entered by a supply port, a heat exchanger with "dmd" in
    its name treats exactly the demand ports. *)
Theorem C86_channel_refuted : forall part, contains "dmd" part = true ->
  forall port, In port ["sup_in"; "sup_out"] ->
  exists c, entered_channel hex_channels part port = Some c
  /\ filter (treated c) hex_ports = ["dmd_in"; "dmd_out"].
Proof.
  intros part D port H. exists "dmd". split; [|reflexivity].
  unfold entered_channel, find_channel, hex_channels. cbn [fold_left].
  rewrite !contains_full by (discriminate || reflexivity). now rewrite D.
Qed.

Example C86_ok : entered_channel hex_channels "hex_1" "sup_in" = Some "sup"
  /\ entered_channel hex_channels "sup_hex" "dmd_out" = Some "dmd"
  /\ contains "dmd" "hex_1" = false.
Proof. repeat split. Qed.
Example C86_wrong : entered_channel hex_channels "hex_dmd" "sup_in" = Some "dmd".
Proof. reflexivity. Qed.
Example C86_cond : entered_channel cond_channels "boiler" "water_in" = Some "water"
  /\ entered_channel cond_channels "fluegas_hex" "water_in" = Some "fluegas".
Proof. split; reflexivity. Qed.

Print Assumptions C86_channel_partial.
Print Assumptions C86_condensing_partial.
Print Assumptions C86_channel_refuted.
