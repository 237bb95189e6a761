(** The squares that hold soundings (C137). *)
From Verif Require Import Py Point.
Open Scope Z_scope.

(** The squares of side [r], counted from the origin along x and y, that hold soundings of [d]; each once. *)
Definition squares (r : Z) (d : list point) : list (Z * Z) := remove_dups (map (fun p => (px p / r, py p / r)) d).
