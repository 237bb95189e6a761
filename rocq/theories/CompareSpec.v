(** Relations between soundings, and between cells, of two grids (C117-C121). *)
From Verif Require Import Py Nd Numpy Point Bin Algorithms Tile Spec.
Open Scope Z_scope.

(** The sounding at a place (dx, dy) further, deeper by [dz]. *)
Definition moved (dx dy : Z) (dz : Q) (p : point) : point := Point (px p + dx) (py p + dy) (pz p + dz)%Q (ptvu p) (pthu p).
(** A depth [v] and the depth [w] after a vertical offset: they differ by it up to 0.001 for rounding, and exactly for offsets that are
    multiples of 0.002. (Ties are rounded to even, so an offset of 0.001 can round differently.) *)
Definition offset_cell (dz : Q) (v w : cell) : Prop :=
  match v, w with
  | None, None => True
  | Some a, Some b => (Qabs (b - a - dz) <= 1 # 1000)%Q /\ ((exists k, dz == (2 * k)%Z # 1000)%Q -> (b == a + dz)%Q)
  | _, _ => False
  end.
(** The cells of side [r] in a cell of side [k * r], by their numbers along y and x. *)
Definition parts (k : nat) : list (nat * nat) := list_prod (seq 0 k) (seq 0 k).
(** The least of the values of some cells; no value if none has one. *)
Definition least_of (l : list cell) (w : cell) : Prop :=
  match w with
  | None => Forall (fun v => v = None) l
  | Some q => (exists a, Some a ∈ l /\ a == q)%Q /\ forall a, Some a ∈ l -> (q <= a)%Q
  end.
