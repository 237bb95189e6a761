(** Two-dimensional numpy arrays: a shape and a flat row-major buffer. *)
From Verif Require Import Py.

Record nd (A : Type) := Nd { nrows : nat; ncols : nat; nflat : list A }.
Arguments Nd {A} _ _ _.
Arguments nrows {A} _.
Arguments ncols {A} _.
Arguments nflat {A} _.

(** The buffer has rows*cols entries. *)
Definition nd_wf {A} (a : nd A) : Prop := length (nflat a) = (nrows a * ncols a)%nat.

(** [a.size], [a.flat[i]], [a[r, c]] (in range, non-negative indices). *)
Definition nd_size {A} (a : nd A) : nat := length (nflat a).
Definition nd_get {A} (a : nd A) (r c : nat) : option A :=
  if bool_decide (r < nrows a)%nat && bool_decide (c < ncols a)%nat
  then nflat a !! (r * ncols a + c)%nat else None.

(** [np.full((r, c), v)] *)
Definition nd_full {A} (r c : nat) (v : A) : nd A := Nd r c (replicate (r * c) v).

(** Array of the given shape whose entry (i, j) is [f i j]. *)
Definition nd_init {A} (r c : nat) (f : nat -> nat -> A) : nd A :=
  Nd r c (map (fun k => f (k / c)%nat (k mod c)%nat) (seq 0 (r * c))).

Definition nd_map {A B} (f : A -> B) (a : nd A) : nd B :=
  Nd (nrows a) (ncols a) (map f (nflat a)).

(** [np.meshgrid(xs, ys)]: both results have shape (len ys, len xs). *)
Definition meshgrid_x (xs ys : list Z) : nd Z :=
  Nd (length ys) (length xs) (concat (map (fun _ => xs) ys)).
Definition meshgrid_y (xs ys : list Z) : nd Z :=
  Nd (length ys) (length xs) (concat (map (fun y => replicate (length xs) y) ys)).

(** [a.T] and [np.fliplr(a)]. *)
Definition nd_transpose {A} (d : A) (a : nd A) : nd A :=
  nd_init (ncols a) (nrows a) (fun i j => default d (nd_get a j i)).
Definition nd_fliplr {A} (d : A) (a : nd A) : nd A :=
  nd_init (nrows a) (ncols a) (fun i j => default d (nd_get a i (ncols a - 1 - j)%nat)).
(** [a[::-1, :]] *)
Definition nd_flipud {A} (d : A) (a : nd A) : nd A :=
  nd_init (nrows a) (ncols a) (fun i j => default d (nd_get a (nrows a - 1 - i)%nat j)).

(** [a[r0:r1, c0:c1]] with python slice clipping. *)
Definition nd_slice {A} (d : A) (a : nd A) (r0 r1 c0 c1 : nat) : nd A :=
  let r1' := Nat.min r1 (nrows a) in
  let c1' := Nat.min c1 (ncols a) in
  nd_init (r1' - r0) (c1' - c0) (fun i j => default d (nd_get a (r0 + i) (c0 + j))).

(** [a[r0:r1, c0:c1] = b]: numpy raises ValueError when the (clipped) slice and [b] differ in
    shape. Simplification: broadcasting of size-1 blocks is not modelled. *)
Definition nd_blit {A} (d : A) (a : nd A) (r0 r1 c0 c1 : nat) (b : nd A) : res (nd A) :=
  let r1' := Nat.min r1 (nrows a) in
  let c1' := Nat.min c1 (ncols a) in
  if bool_decide (nrows b = r1' - r0)%nat && bool_decide (ncols b = c1' - c0)%nat then
    Ok (nd_init (nrows a) (ncols a) (fun i j =>
          if bool_decide (r0 <= i < r1')%nat && bool_decide (c0 <= j < c1')%nat
          then default d (nd_get b (i - r0) (j - c0)) else default d (nd_get a i j)))
  else Raise ValueError.

(** [a[r0:r1, c0:c1] = v] for a scalar [v]. *)
Definition nd_fill {A} (d : A) (a : nd A) (r0 r1 c0 c1 : nat) (v : A) : nd A :=
  let r1' := Nat.min r1 (nrows a) in
  let c1' := Nat.min c1 (ncols a) in
  nd_init (nrows a) (ncols a) (fun i j =>
    if bool_decide (r0 <= i < r1')%nat && bool_decide (c0 <= j < c1')%nat
    then v else default d (nd_get a i j)).

(** [a[mask] = vals]: True positions, in flat order, receive the successive values; numpy raises
    ValueError when the counts differ. *)
Fixpoint mask_assign {A} (mask : list bool) (dst vals : list A) : res (list A) :=
  match mask, dst with
  | [], _ => match vals with [] => Ok dst | _ :: _ => Raise ValueError end
  | _ :: _, [] => Raise IndexError
  | false :: m, d :: ds => let* r := mask_assign m ds vals in Ok (d :: r)
  | true :: m, _ :: ds =>
      match vals with
      | [] => Raise ValueError
      | v :: vs => let* r := mask_assign m ds vs in Ok (v :: r)
      end
  end.

(** [l[mask]] *)
Fixpoint mask_select {A} (mask : list bool) (l : list A) : list A :=
  match mask, l with
  | true :: m, a :: r => a :: mask_select m r
  | false :: m, _ :: r => mask_select m r
  | _, _ => []
  end.
