(** Vocabulary for the files that exports write (C106, C107). *)
From Coq Require Import Ascii.
From Verif Require Import Py Convenience FolderSpec.
Open Scope Z_scope.

(** The file system after files of these names were written. *)
Definition put (f : tfs) (names : list string) : tfs := foldl (fun f n => dset f (parts n) (TFile "")) f names.
(** Text without '/'. *)
Definition no_slash (s : string) : Prop := ~ In slash (list_ascii_of_string s).
(** The texts of numbers and times that go into names: '4.0', '20210304_101112'. *)
Definition name_repr (repr : Z -> string) : Prop := good_repr repr /\ forall x, no_slash (repr x).
Definition name_stamp (stamp : string) : Prop := no_slash stamp /\ ~ In "."%char (list_ascii_of_string stamp).
