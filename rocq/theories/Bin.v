(** utilities.py:103-187 *)
From Verif Require Import Py Nd Numpy.
Open Scope Z_scope.

(** utilities.py:118-122 and 123-124: is_power_of_two for n >= 1. [int(n)] truncates; the
    tolerance is 0.00001. *)
Definition is_power_of_two_ge1 (n : Q) : bool :=
  if negb (Qle_bool n 1) then
    let i := Qfloor n in
    if negb (Qle_bool (Qabs (n - inject_Z i)) (1 # 100000)) then false
    else negb (i =? 0) && (Z.land i (i - 1) =? 0)
  else Qeq_bool n 1.

(** utilities.py:103-133. The recursive call is made on a number >= 1, so it is unrolled once.
    Simplification: 1 / n is the exact quotient. *)
Definition is_power_of_two (n : Q) : bool :=
  if negb (Qle_bool n 1) then is_power_of_two_ge1 n
  else if Qeq_bool n 1 then true
  else if negb (Qle_bool n 0) then
    let invnum := (/ n)%Q in
    let r := inject_Z (rint invnum) in
    is_power_of_two_ge1 (if negb (Qle_bool (1 # 10000000000) (Qabs (r - invnum))) then r else invnum)
  else false.

(** utilities.py:183-184: [np.searchsorted(edges, v, side='right') - 1] *)
Definition bin1 (edges : list Z) (v : Z) : Z := Z.of_nat (searchsorted_right edges v) - 1.

(** utilities.py:136-187. The points come as a list of dask partitions; a numpy array is the
    single-partition case (lines 160-167). Lines 171-172: single-bin shortcut. Line 187: fancy
    indexing, where negative indices wrap and too large ones raise IndexError. *)
Definition bin2d_parts (parts : list (list (Z * Z))) (x_edges y_edges : list Z) : res (list Z) :=
  if (length x_edges =? 2)%nat && (length y_edges =? 2)%nat then
    Ok (replicate (length (concat parts)) 0)
  else
    let xshape := (length x_edges - 1)%nat in
    let yshape := (length y_edges - 1)%nat in
    let total_x := concat (map (map (fun p => bin1 x_edges p.1)) parts) in
    let total_y := concat (map (map (fun p => bin1 y_edges p.2)) parts) in
    rmap (fun yx : Z * Z =>
            match py_index yshape yx.1, py_index xshape yx.2 with
            | Some r, Some c => Ok (Z.of_nat (r * xshape + c))
            | _, _ => Raise IndexError
            end) (zip total_y total_x).

(** The numpy-array case. *)
Definition bin2d_with_indices (xy : list (Z * Z)) (x_edges y_edges : list Z) : res (list Z) :=
  bin2d_parts [xy] x_edges y_edges.
