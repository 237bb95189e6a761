(** Cells of the grid of two sets of soundings and of the grids of each (C129). *)
From Verif Require Import Py Nd Numpy Point Bin Algorithms Tile Spec.
Open Scope Z_scope.

(** [w] is the mean of [n1] soundings with mean [v1] and [n2] soundings with mean [v2], all rounded to three places: it is their weighted mean up to 0.001 and lies between them. *)
Definition mean_of_both (n1 n2 : Q) (v1 v2 w : cell) : Prop :=
  match v1, v2, w with
  | None, None, None => True
  | Some a, None, Some c | None, Some a, Some c => (a == c)%Q
  | Some a, Some b, Some c => (Qabs (c * (n1 + n2) - (a * n1 + b * n2)) <= (n1 + n2) * (1 # 1000))%Q /\ (a <= c \/ b <= c)%Q /\ (c <= a \/ c <= b)%Q
  | _, _, _ => False
  end.
