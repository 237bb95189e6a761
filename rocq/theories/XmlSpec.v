(** Vocabulary for documents (C109-C111). *)
From Coq Require Import Ascii.
From Verif Require Import Py BagXml.

(** The tags of the elements on the way from the root (left out) to the element at a position. *)
Fixpoint tags_to (p : list nat) (t : xml) : option (list string) :=
  match p with [] => Some [] | i :: r => k ← x_kids t !! i; g ← tags_to r k; Some (x_tag k :: g) end.
(** The order in which elements begin in the file. *)
Fixpoint before (p q : list nat) : Prop :=
  match p, q with
  | [], _ :: _ => True
  | i :: p', j :: q' => i < j \/ i = j /\ before p' q'
  | _, [] => False
  end.
(** The first element of the document with these tags. *)
Definition first_with (path : list string) (t : xml) (p : list nat) : Prop :=
  tags_to p t = Some path /\ forall q, tags_to q t = Some path -> q = p \/ before p q.
(** Where the times go. *)
Definition begin_path : list string := temporal_hierarchy ++ [begin_tag].
Definition end_path : list string := temporal_hierarchy ++ [end_tag].
(** No two elements of the document have the same tags on the way to them, as far as this path goes. *)
Definition single (path : list string) (t : xml) : Prop :=
  forall pre p q, pre `prefix_of` path -> tags_to p t = Some pre -> tags_to q t = Some pre -> p = q.
(** Text that a document can hold: see [legal]; a carriage return is read back as a line feed. *)
Definition plain (s : string) : Prop := Forall (fun c => legal c = true /\ c <> "013"%char) (list_ascii_of_string s).
