(** Layer values, cell edges and georeference in floating point: algorithms.py:56-61, 114-121, tile.py:333-351,
    grids.py:304-312, bgrid.py:335-343. A float is a real number of the format (binary32 or binary64), and every
    operation rounds the exact result to nearest, ties to even. Simplification, as in FloatExtents.v: no upper bound
    of the exponent, no sign of zero, no NaN. *)
From Coq Require Import ZArith Reals List Permutation.
From Flocq Require Import Core.
From Verif Require Import FloatExtents.
Import ListNotations.
Open Scope R_scope.

(** numpy's float32 and float64 *)
Inductive width := Single | Double.
Definition bits (w : width) : Z := match w with Single => 24%Z | Double => 53%Z end.
Definition least (w : width) : Z := match w with Single => (-149)%Z | Double => (-1074)%Z end.
Definition is_fl (w : width) (x : R) : Prop := generic_format radix2 (FLT_exp (least w) (bits w)) x.
Definition rnd (w : width) (x : R) : R := round radix2 (FLT_exp (least w) (bits w)) ZnearestE x.

(** algorithms.py:59 (and 63, 67): np.add.reduceat adds numbers of the type of the soundings in that type. The order of
    the additions is numpy's business: [summed] allows every order and grouping. *)
Inductive summed (w : width) : list R -> R -> Prop :=
| S_one x : summed w [x] x
| S_add a b s t l : summed w a s -> summed w b t -> Permutation l (a ++ b) -> summed w l (rnd w (s + t)).
(** What numpy does for two to eight numbers: the first one plus the sum of the others from left to right. *)
Definition numpy_sum (w : width) (l : list R) : R :=
  match l with
  | [] => 0
  | [x] => x
  | x :: y :: r => rnd w (x + fold_left (fun s z => rnd w (s + z)) r y)
  end.
(** algorithms.py:60-61: the quotient by the (integer) counts is float64; it is stored in a float32 layer (tile.py:340). *)
Definition stored_mean (s : R) (n : nat) : R := rnd Single (rnd Double (s / INR n)).

(** algorithms.py:114-121: the minimum, stored in a float32 layer. *)
Definition least_of (x : R) (l : list R) : R := fold_left Rmin l x.
Definition stored_min (x : R) (l : list R) : R := rnd Single (least_of x l).

(** grids.py:310, bgrid.py:341: the x or y of the origin in the geotransform. *)
Definition geo_origin (x : R) : R := rnd Single x.

(** tile.py:333-336: edge number i of a tile with n cells along the axis. *)
Definition float_edge (start rez : R) (n i : Z) : R :=
  if (i <? n)%Z then float_arange start rez i else fl (float_arange start rez (n - 1) + rez).
