(** What the theorems about folders say. *)
From Coq Require Import Ascii.
From Verif Require Import Py Meta Disk Convenience.

(** Every entry is inside a folder. *)
Definition rooted (f : tfs) : Prop := forall p n, dget f p = Some n -> p <> [] /\ p <> ["/"] /\ look f (removelast p) = Some TDir.
(** [p] is a folder without entries. *)
Definition empty_folder (f : tfs) (p : list string) : Prop := look f p = Some TDir /\ forall a q, dget f (p ++ a :: q) = None.
(** Nothing of [f] is gone or changed in [f']. *)
Definition keeps (f f' : tfs) : Prop := forall q n, dget f q = Some n -> dget f' q = Some n.
(** [f'] has no other new entries than folders that satisfy [P]. *)
Definition adds (P : list string -> Prop) (f f' : tfs) : Prop :=
  forall q n, dget f' q = Some n -> dget f q = Some n \/ (n = TDir /\ P q).
(** No name on the way to [p] is a file. *)
Definition no_file_on (f : tfs) (p : list string) : Prop := forall q c, q `prefix_of` p -> look f q <> Some (TFile c).
(** A name without '/'. *)
Definition plain_name (n : string) : Prop := n <> "" /\ ~ In slash (list_ascii_of_string n).
(** The calls of rmtree with the numbers k, …, k + j - 1 raise PermissionError and turn [f] into [g]. *)
Inductive denied (rm : nat -> tfs -> tfs * option exn) : nat -> nat -> tfs -> tfs -> Prop :=
  | denied_0 k f : denied rm k 0 f f
  | denied_S k j f f1 g : rm k f = (f1, Some PermissionError) -> denied rm (S k) j f1 g -> denied rm k (S j) f g.

(** ** Names *)
(** What is used of the text of a number: different numbers have different texts, there is no '_' in it, and
    it begins with a digit or '-'. *)
Definition good_repr (repr : Z -> string) : Prop :=
  (forall x y, repr x = repr y -> x = y) /\ (forall x, ~ In "_"%char (list_ascii_of_string (repr x))) /\
  forall x, exists c l, list_ascii_of_string (repr x) = c :: l /\ In c (list_ascii_of_string "-0123456789").
(** The entries of the folder of a grid and of the folder of a tile. *)
Definition grid_entry (n : fname) : Prop :=
  match n with
  | FFolder (NTile _ _) | FMeta => True
  | FGridArray key => key ∈ ["tile_x_origin"; "tile_y_origin"; "tile_edges_x"; "tile_edges_y"; "existing_tile_mask"]
  | _ => False
  end.
Definition tile_entry (n : fname) : Prop :=
  match n with FMeta | FData | FCells _ _ | FEdgesX _ | FEdgesY _ | FIndices _ => True | _ => False end.
