(** The cells of whole grids and the squares with soundings: C137. *)
From Verif Require Import Py Nd Numpy Point Bin Algorithms Tile Time Meta Disk Grid GridRun GridQuery GridOps Export
  Spec TileExec GridExec WholeSpec SameSpec SquaresSpec Samples GridSamples SquaresFacts Properties_GridCount Properties_Whole.
Open Scope Z_scope.

(** ** C137 *)
(** cell_count of a grid of either kind, with any tile sizes and history, at the resolution it was gridded with. *)
Theorem C137_count e alg r ct T (O : tile_ops T) g :
  alg = "mean" \/ alg = "shoalest" -> 0 < r -> ct <> [] -> gridded e alg r ct T O g ->
  exists d, g_cell_count O g = Ok d /\ default 0%nat (dget d r) = length (squares r (all_points ct)).
Proof.
  intros Ha Hr Hne [size zarr disk g0 a dask g' Hs Hm HC Hp Hu Hx Hq|size sub zarr disk g0 a dask g' Hs Hsub Hm1 Hm2 HC Hp Hu Hx Hq].
  - destruct (sr_squares e alg r ct Ha Hr Hne size zarr disk g0 a dask g' Hs Hm HC Hp Hu Hx Hq) as [HC' E].
    destruct (C47_cell_count e size false zarr disk g' ct Hs HC') as (d & H1 & H2). exists d. split; [exact H1|]. rewrite H2. exact E.
  - destruct (vr_squares e alg r ct Ha Hr Hne size sub zarr disk g0 a dask g' Hs Hsub Hm1 Hm2 HC Hp Hu Hx Hq) as [HC' E].
    destruct (C47_cell_count_vr e size sub false zarr disk g' ct Hs Hsub HC') as (d & H1 & H2). exists d. split; [exact H1|]. rewrite H2. exact E.
Qed.
(** So two grids of the same soundings, of any kinds, have the same number of cells. *)
Theorem C137_same e alg1 alg2 r ct1 ct2 T1 (O1 : tile_ops T1) g1 T2 (O2 : tile_ops T2) g2 :
  alg1 = "mean" \/ alg1 = "shoalest" -> alg2 = "mean" \/ alg2 = "shoalest" -> 0 < r -> ct1 <> [] -> ct2 <> [] -> all_points ct1 ≡ₚ all_points ct2 ->
  gridded e alg1 r ct1 T1 O1 g1 -> gridded e alg2 r ct2 T2 O2 g2 ->
  exists d1 d2, g_cell_count O1 g1 = Ok d1 /\ g_cell_count O2 g2 = Ok d2 /\ default 0%nat (dget d1 r) = default 0%nat (dget d2 r).
Proof.
  intros A1 A2 Hr N1 N2 Hp G1 G2. destruct (C137_count e alg1 r ct1 T1 O1 g1 A1 Hr N1 G1) as (d1 & H1 & E1), (C137_count e alg2 r ct2 T2 O2 g2 A2 Hr N2 G2) as (d2 & H2 & E2).
  exists d1, d2. split; [exact H1|]. split; [exact H2|]. rewrite E1, E2. by apply squares_perm.
Qed.
(** A grid with cells [k] times as long: no more cells than the fine grid and at least one for [k * k] of its cells, so that
    the area covered does not shrink. *)
Theorem C137_coarse e alg1 alg2 r k ct1 ct2 T1 (O1 : tile_ops T1) g1 T2 (O2 : tile_ops T2) g2 :
  alg1 = "mean" \/ alg1 = "shoalest" -> alg2 = "mean" \/ alg2 = "shoalest" -> 0 < r -> (0 < k)%nat -> ct1 <> [] -> ct2 <> [] -> all_points ct1 ≡ₚ all_points ct2 ->
  gridded e alg1 r ct1 T1 O1 g1 -> gridded e alg2 (Z.of_nat k * r) ct2 T2 O2 g2 ->
  exists d1 d2 n1 n2, g_cell_count O1 g1 = Ok d1 /\ g_cell_count O2 g2 = Ok d2 /\ n1 = default 0%nat (dget d1 r) /\ n2 = default 0%nat (dget d2 (Z.of_nat k * r)) /\
    (n2 <= n1 <= n2 * (k * k))%nat.
Proof.
  intros A1 A2 Hr Hk N1 N2 Hp G1 G2. assert (Hkr : 0 < Z.of_nat k * r) by (apply Z.mul_pos_pos; lia). destruct (C137_count e alg1 r ct1 T1 O1 g1 A1 Hr N1 G1) as (d1 & H1 & E1), (C137_count e alg2 _ ct2 T2 O2 g2 A2 Hkr N2 G2) as (d2 & H2 & E2).
  eexists d1, d2, _, _. split; [exact H1|]. split; [exact H2|]. split; [reflexivity|]. split; [reflexivity|]. rewrite E1, E2, <- (squares_perm _ _ _ Hp). by apply squares_coarse.
Qed.

(** Five squares of side 4 hold the five soundings, and three of side 8. *)
Definition mean_8 := grid_args "mean" 8 false "full".
Example C137_case :
  length (squares 4 (all_points ct_2)) = 5%nat /\ length (squares 8 (all_points ct_2)) = 3%nat /\
  gridded env_s "mean" 4 ct_2 tile sr_ops (st_of (g_grid sr_ops env_s sr_2 mean_4 None)) /\ gridded env_s "mean" 8 ct_2 tile sr_ops (st_of (g_grid sr_ops env_s sr_2 mean_8 None)) /\
  gridded env_s "mean" 4 ct_2 sr_grid vr_ops (st_of (g_grid vr_ops env_s wide_2 mean_4 None)) /\
  g_cell_count sr_ops (st_of (g_grid sr_ops env_s sr_2 mean_4 None)) = Ok [(4, 5%nat)] /\ g_cell_count sr_ops (st_of (g_grid sr_ops env_s sr_2 mean_8 None)) = Ok [(8, 3%nat)] /\
  g_cell_count vr_ops (st_of (g_grid vr_ops env_s wide_2 mean_4 None)) = Ok [(4, 5%nat)].
Proof.
  split; [vm_compute; reflexivity|]. split; [vm_compute; reflexivity|].
  split; [apply (Gridded_sr _ _ _ _ 8 false true sr_2 mean_4 None); [lia|reflexivity|apply sr_2_clean|split; reflexivity|intros E; discriminate E|vm_compute; reflexivity|apply Q_none]|].
  split; [apply (Gridded_sr _ _ _ _ 8 false true sr_2 mean_8 None); [lia|reflexivity|apply sr_2_clean|split; reflexivity|intros E; discriminate E|vm_compute; reflexivity|apply Q_none]|].
  split; [apply (Gridded_vr _ _ _ _ 16 8 false true wide_2 mean_4 None); [lia|lia|reflexivity|reflexivity|apply wide_2_clean|split; reflexivity|intros E; discriminate E|vm_compute; reflexivity|apply Q_none]|].
  split; [vm_compute; reflexivity|]. split; vm_compute; reflexivity.
Qed.

Print Assumptions C137_count.
Print Assumptions C137_same.
Print Assumptions C137_coarse.
