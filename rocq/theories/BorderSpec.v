(** Vocabulary for the border points of variable resolution grids (C97, C98). *)
From Verif Require Import Py Nd Numpy Point Tile Grid GridRun GridOps Spec TileExec GridExec.
Open Scope Z_scope.

(** The points of [d] in the four squares that share a side with the square of side [size] at (x, y) and
    within [q] of the corresponding side of their own sub-square, the squares being divided into squares of
    side [sub]: the upper side for smaller y, the left side for larger x, the lower side for larger y, the
    right side for smaller x. *)
Definition sub_border_points (size sub x y : Z) (q : Q) (d : list point) : list point :=
  filter (fun p => in_square x (y - size) size (px p) (py p) /\ Qle_bool (inject_Z (sub - (py p - (y - size)) mod sub)) q = true) d ++
  filter (fun p => in_square (x + size) y size (px p) (py p) /\ Qle_bool (inject_Z ((px p - (x + size)) mod sub)) q = true) d ++
  filter (fun p => in_square x (y + size) size (px p) (py p) /\ Qle_bool (inject_Z ((py p - (y + size)) mod sub)) q = true) d ++
  filter (fun p => in_square (x - size) y size (px p) (py p) /\ Qle_bool (inject_Z (sub - (px p - (x - size)) mod sub)) q = true) d.

(** [sg] is a tile of [g] whose square shares a side with the square of side [size] at (x, y). *)
Definition beside {T} (g : grid T) (size x y : Z) (sg : T) : Prop :=
  exists k u v, tile_at g k = Some sg /\ origin_at g k = Some (u, v) /\
    ((u = x /\ (v = y - size \/ v = y + size)) \/ (v = y /\ (u = x - size \/ u = x + size))).
(** Every location of the grid holds a tile. *)
Definition every_location {T} (g : grid T) : Prop := forall j uv, origin_at g j = Some uv -> is_Some (tile_at g j).
