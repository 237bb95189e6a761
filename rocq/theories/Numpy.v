(** One-dimensional numpy primitives, with the documented semantics. *)
From Verif Require Import Py Nd.
Open Scope Z_scope.

(** [np.ceil(a / b)] and [np.floor(a / b)] for integers, b > 0. *)
Definition floor_div (a b : Z) : Z := a / b.
Definition ceil_div (a b : Z) : Z := - ((- a) / b).

(** [np.arange(lo, hi, step)], step > 0: ceil((hi-lo)/step) values (none when hi <= lo). *)
Definition arange (lo hi step : Z) : list Z :=
  map (fun i => lo + Z.of_nat i * step) (seq 0 (Z.to_nat (ceil_div (hi - lo) step))).

(** [np.append(g, g[-1] + step)] *)
Definition with_last_edge (g : list Z) (step : Z) : res (list Z) :=
  match last g with
  | Some l => Ok (g ++ [l + step])
  | None => Raise IndexError
  end.

(** [np.searchsorted(edges, x, side='right')] on an ascending array: the number of leading
    entries that are <= x. *)
Fixpoint searchsorted_right (edges : list Z) (x : Z) : nat :=
  match edges with
  | [] => 0%nat
  | e :: r => if e <=? x then S (searchsorted_right r x) else 0%nat
  end.

(** [np.searchsorted(a, x)] (side='left') on an ascending array of rationals: the number of
    leading entries that are < x. *)
Fixpoint searchsorted_left_q (a : list Q) (x : Q) : nat :=
  match a with
  | [] => 0%nat
  | e :: r => if negb (Qle_bool x e) then S (searchsorted_left_q r x) else 0%nat
  end.

(** Index [i] (possibly negative) into an axis of length [n]. *)
Definition py_index (n : nat) (i : Z) : option nat :=
  if (0 <=? i) && (i <? Z.of_nat n) then Some (Z.to_nat i)
  else if (- Z.of_nat n <=? i) && (i <? 0) then Some (Z.to_nat (i + Z.of_nat n))
  else None.

(** [np.argsort(a)]: the numpy default sort is not stable; this model uses one particular
    sorting permutation, and the gridding functions below also exist in a version that takes any
    sorting permutation ([..._with]). *)
Definition key_le (a b : Z * nat) : Prop := a.1 <= b.1.
Global Instance key_le_dec : RelDecision key_le.
Proof. intros a b. unfold key_le. apply _. Defined.
Definition argsort (a : list Z) : list nat :=
  (merge_sort key_le (zip a (seq 0 (length a)))).*2.

(** [a[idx]] for in-range non-negative indices. *)
Definition take_idx {A} (a : list A) (idx : list nat) : list A :=
  omap (fun i => a !! i) idx.

(** [np.unique(a)]: ascending distinct values. *)
Definition np_unique (a : list Z) : list Z := merge_sort Z.le (remove_dups a).

(** First index of [v] in [a], number of occurrences of [v] in [a]: the [return_index] and
    [return_counts] results of np.unique. *)
Fixpoint first_index (a : list Z) (v : Z) : nat :=
  match a with
  | [] => 0%nat
  | x :: r => if decide (x = v) then 0%nat else S (first_index r v)
  end.
Definition count_of (a : list Z) (v : Z) : nat := length (filter (fun x => x = v) a).

(** [a[s:e]] *)
Definition slice {A} (a : list A) (s e : nat) : list A := take (e - s) (drop s a).

(** [ufunc.reduceat(a, idx)]: entry k reduces a[idx[k]:idx[k+1]] (to the end for the last); when
    that range is empty it is a[idx[k]]. *)
Fixpoint reduceat {A} (f : A -> A -> A) (a : list A) (idx : list nat) : list A :=
  match idx with
  | [] => []
  | i :: r =>
      let e := match r with j :: _ => j | [] => length a end in
      match slice a i e with
      | x :: xs => foldl f x xs :: reduceat f a r
      | [] => match a !! i with Some x => x :: reduceat f a r | None => reduceat f a r end
      end
  end.

(** [np.split(a, idx)[1:]]: the pieces a[idx[k]:idx[k+1]]. *)
Fixpoint np_split_tail {A} (a : list A) (idx : list nat) : list (list A) :=
  match idx with
  | [] => []
  | i :: r =>
      let e := match r with j :: _ => j | [] => length a end in
      slice a i e :: np_split_tail a r
  end.

(** [np.unravel_index(i, (rows, cols))]; raises ValueError when out of range. *)
Definition unravel_index (rows cols : nat) (i : Z) : res (nat * nat) :=
  if (0 <=? i) && (i <? Z.of_nat (rows * cols)) then
    Ok (Z.to_nat i / cols, Z.to_nat i mod cols)%nat
  else Raise ValueError.

(** [grid[urow, ucol] = vals] for in-range index lists. *)
Fixpoint scatter {A} (g : nd A) (rc : list (nat * nat)) (vals : list A) : nd A :=
  match rc, vals with
  | (r, c) :: rcs, v :: vs =>
      scatter (Nd (nrows g) (ncols g) (<[(r * ncols g + c)%nat := v]> (nflat g))) rcs vs
  | _, _ => g
  end.

(** Exact rationals. [np.rint]: nearest integer, ties to even. *)
Definition rint (q : Q) : Z :=
  let f := Qfloor q in
  let d := (q - inject_Z f)%Q in
  match Qcompare d (1 # 2) with
  | Lt => f
  | Gt => f + 1
  | Eq => if Z.even f then f else f + 1
  end.

(** [np.round(v, 3)] = rint(v * 1000) / 1000, on exact rationals, canonical form. *)
Definition round3 (q : Q) : Q := Qred (rint (q * 1000) # 1000).

Definition qsum (l : list Q) : Q := foldr Qplus 0%Q l.
Definition qmin (a b : Q) : Q := if Qle_bool a b then a else b.
