(** Specification vocabulary, independent of the model's helper functions. *)
From Verif Require Import Py Nd Numpy Point.
Open Scope Z_scope.

Definition sumQ (l : list Q) : Q := fold_right Qplus 0%Q l.
Definition numQ (n : nat) : Q := inject_Z (Z.of_nat n).

(** [m] is the arithmetic mean of the non-empty list [l]. *)
Definition is_mean (l : list Q) (m : Q) : Prop :=
  l <> [] /\ (m * numQ (length l) == sumQ l)%Q.

(** [m] is the smallest value of the non-empty list [l]. *)
Definition is_min (l : list Q) (m : Q) : Prop :=
  (exists x, x ∈ l /\ x == m)%Q /\ (forall x, x ∈ l -> m <= x)%Q.

(** [r] is [q] rounded to three decimals, ties to even. *)
Definition is_round3 (q r : Q) : Prop :=
  exists k : Z, (r == k # 1000)%Q /\ (Qabs (q - r) <= 1 # 2000)%Q /\
    ((Qabs (q - r) == 1 # 2000)%Q -> Z.Even k).

(** Half-open square cell (row, col) of a grid of cell size [r] whose lower left corner is
    (x0, y0). *)
Definition in_cell (x0 y0 r : Z) (row col : nat) (x y : Z) : Prop :=
  x0 + Z.of_nat col * r <= x < x0 + (Z.of_nat col + 1) * r /\
  y0 + Z.of_nat row * r <= y < y0 + (Z.of_nat row + 1) * r.

Global Instance in_cell_dec x0 y0 r row col x y : Decision (in_cell x0 y0 r row col x y).
Proof. unfold in_cell. apply _. Defined.

(** Half-open square of side [s] with lower left corner (x0, y0). *)
Definition in_square (x0 y0 s x y : Z) : Prop := x0 <= x < x0 + s /\ y0 <= y < y0 + s.
Global Instance in_square_dec x0 y0 s x y : Decision (in_square x0 y0 s x y).
Proof. unfold in_square. apply _. Defined.

(** The points of [d] in a cell, in order. *)
Definition points_in_cell (x0 y0 r : Z) (row col : nat) (d : list point) : list point :=
  filter (fun p => in_cell x0 y0 r row col (px p) (py p)) d.

(** What a cell of a mean (minimum) layer must hold for the values [l] that fall in it: nothing when
    there are none, otherwise the mean (least) value rounded to three decimals. *)
Definition mean_cell (l : list Q) (v : option Q) : Prop :=
  (l = [] /\ v = None) \/ exists m q, is_mean l m /\ is_round3 m q /\ v = Some q.
Definition least_cell (l : list Q) (v : option Q) : Prop :=
  (l = [] /\ v = None) \/ exists m q, is_min l m /\ is_round3 m q /\ v = Some q.

(** The n+1 edges of n equal bins of width [w] starting at [lo]. *)
Definition even_edges (lo w : Z) (n : nat) : list Z :=
  map (fun i => lo + Z.of_nat i * w) (seq 0 (S n)).

(** Row-major position of coordinates [c] in an array of the given shape. *)
Fixpoint row_major (shape c : list Z) : Z :=
  match shape, c with
  | _ :: ss, i :: cs => i * fold_right Z.mul 1 ss + row_major ss cs
  | _, _ => 0
  end.
Definition in_shape (shape c : list Z) : Prop := Forall2 (fun s i => 0 <= i < s) shape c.

(** ** What is held: containers with their points, oldest first *)
Notation content := (list (string * list point)).
(** Drop a container; add a container (replacing one of the same name). *)
Definition drop_c (ct : content) (c : string) : content := filter (fun cp => cp.1 <> c) ct.
Definition put_c (ct : content) (c : string) (d : list point) : content := drop_c ct c ++ [(c, d)].
(** All the points held, in order. *)
Definition all_points (ct : content) : list point := concat ct.*2.
(** Consecutive index ranges of the containers, starting at [off]. *)
Fixpoint ranges (off : nat) (ct : content) : dict string (nat * nat) :=
  match ct with
  | [] => []
  | (c, d) :: r => (c, (off, off + length d)%nat) :: ranges (off + length d) r
  end.

(** ** Layers *)
(** [n] cells of size [r] are just enough to cover a length [s]. *)
Definition cells_cover (s r : Z) (n : nat) : Prop := (Z.of_nat n - 1) * r < s <= Z.of_nat n * r.
(** [a] is an n x n array whose cell (row, col) satisfies [P row col]. *)
Definition layer_is (n : nat) (a : arr) (P : nat -> nat -> cell -> Prop) : Prop :=
  nrows a = n /\ ncols a = n /\ length (nflat a) = (n * n)%nat /\
  forall row col, (row < n)%nat -> (col < n)%nat -> exists v, nd_get a row col = Some v /\ P row col v.
(** The values present in an array. *)
Definition values (a : arr) : list Q := omap id (nflat a).

(** [s] lists the positions of [l] in an order that makes [l] ascending, as any argsort does. *)
Definition sorts (l : list Z) (s : list nat) : Prop :=
  s ≡ₚ seq 0 (length l) /\ StronglySorted Z.le (omap (fun i => l !! i) s).

(** ** The documented depth bands (maximum depth in metres, resolution in quarter metres) *)
Definition documented_bands : list (Z * Z) :=
  [(10, 1); (20, 2); (40, 4); (60, 8); (80, 16); (160, 32); (320, 64); (640, 128); (1280, 256);
   (2560, 512); (5120, 1024); (10240, 2048); (20480, 4096)].
(** [v] is the resolution of the first band whose maximum depth exceeds [m]. *)
Definition band_for (m : Q) (v : Z) : Prop :=
  exists i k, documented_bands !! i = Some (k, v) /\ (m < inject_Z k)%Q /\
    forall j k' v', (j < i)%nat -> documented_bands !! j = Some (k', v') -> (inject_Z k' <= m)%Q.

(** ** Grids of tiles *)
(** The part of the content that falls in the square of side [s] with lower left corner (x, y):
    every container's points there, in order; containers without points there are left out. *)
Definition content_in (x y s : Z) (ct : content) : content :=
  filter (fun cp => cp.2 <> [])
    (map (fun cp => (cp.1, filter (fun p => in_square x y s (px p) (py p)) cp.2)) ct).
