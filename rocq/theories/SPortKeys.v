(** Names of parts: what is meant by a name without a meaning of its own, and by giving the parts of
    a description other names. *)
From Coq Require Import List String Ascii Bool.
From Verif Require Import MPortKeys.
Import ListNotations.
Local Open Scope string_scope.
Local Open Scope list_scope.

(** ** Names which say nothing about the code *)
Definition plain_name (n : string) : Prop :=
  has ";" n = false /\ has "/" n = false /\ n <> "BC" /\ n <> "BoundaryCondition" /\ n <> "p_gasb1_ff".
Definition plain_port (q : string) : Prop := has ";" q = false.
Definition plain_end (n : string) : Prop := n = "BoundaryCondition" \/ plain_name n.
Definition plain_request (r : request) : Prop :=
  plain_end (fp r) /\ plain_port (fq r) /\ plain_end (sp r) /\ plain_port (sq r).
Definition plain (d : description) : Prop :=
  (forall p, In p (d_parts d) -> plain_name (fst p) /\ forall q, In q (snd p) -> plain_port q) /\
  (forall n, In n (d_opens d) -> plain_port n) /\
  (forall r, In r (d_requests d) -> plain_request r).

(** ** Other names for the parts *)
Definition ren (f : string -> string) (n : string) : string :=
  if String.eqb n "BoundaryCondition" then n else f n.
Definition ren_request f r := {| fp := ren f (fp r); fq := fq r; sp := ren f (sp r); sq := sq r |}.
Definition rename (f : string -> string) (d : description) : description :=
  {| d_parts := map (fun p => (f (fst p), snd p)) (d_parts d);
     d_opens := d_opens d;
     d_requests := map (ren_request f) (d_requests d) |}.
Definition ren_pair f (x : string * string) := (ren f (fst x), snd x).
Definition ren_cause f c :=
  match c with
  | CPart n => CPart n
  | CUnknown n => CUnknown (ren f n)
  | CTaken a b => CTaken (ren f a) b
  | CPort a b => CPort (ren f a) b
  | COpen l => COpen (map (ren_pair f) l)
  end.
Definition ren_outcome f o :=
  match o with
  | Ready v => Ready (map (fun x => (ren f (fst (fst x)), snd (fst x), option_map (ren_pair f) (snd x))) v)
  | Refused c => Refused (ren_cause f c)
  | Unpacking => Unpacking
  | Debugger => Debugger
  end.

Definition good (f : string -> string) : Prop :=
  (forall n, plain_name n -> plain_name (f n)) /\
  (forall m n, plain_name m -> plain_name n -> f m = f n -> m = n).

