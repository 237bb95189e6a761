(** Grids that soundings were only added to (C140). *)
From Verif Require Import Py Nd Numpy Point Bin Algorithms Tile Time Meta Disk Grid.
Open Scope Z_scope.

(** [g] is [g0] after successful calls of add_points with the soundings [ds], one list for each call. *)
Inductive added {T} (O : tile_ops T) (g0 : grid T) : grid T -> list (list point) -> Prop :=
  | Added_none : added O g0 g0 []
  | Added_more g ds d a : added O g0 g ds -> exn_of (g_add_points O g (GoodData d) a) = None ->
      added O g0 (st_of (g_add_points O g (GoodData d) a)) (ds ++ [d]).

(** The extents [x] in whole tiles of side [size], around the soundings [d]: the lower sides as near as possible, the upper sides
    with less than [n] tiles to spare. *)
Definition around (size : Z) (n : nat) (d : list point) (x : ext) : Prop :=
  (size | x0 x) /\ (size | y0 x) /\ (size | x1 x) /\ (size | y1 x) /\
  (forall p, p ∈ d -> x0 x <= px p < x1 x /\ y0 x <= py p < y1 x) /\
  (exists p, p ∈ d /\ px p < x0 x + size) /\ (exists p, p ∈ d /\ py p < y0 x + size) /\
  (exists p, p ∈ d /\ x1 x - Z.of_nat n * size <= px p) /\ (exists p, p ∈ d /\ y1 x - Z.of_nat n * size <= py p).
