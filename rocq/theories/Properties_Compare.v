(** Grids with related soundings: C117-C121. *)
From Verif Require Import Py Nd Numpy Point Bin Algorithms Tile Time Meta Disk Grid GridRun GridQuery GridOps Export
  Spec TileExec GridExec WholeSpec SameSpec CompareSpec Samples GridSamples GridSameFacts CompareFacts CoarseFacts Properties_Same.
Open Scope Z_scope.

(** ** C117 *)
(** [g2] holds the soundings of [g1] and [more]: where [g1] has a shoalest depth, [g2] has one that is not deeper. *)
Theorem C117_depth e r ct1 ct2 more T1 (O1 : tile_ops T1) g1 T2 (O2 : tile_ops T2) g2 x y a w :
  0 < r -> ct1 <> [] -> ct2 <> [] -> all_points ct2 ≡ₚ all_points ct1 ++ more ->
  gridded e "shoalest" r ct1 T1 O1 g1 -> gridded e "shoalest" r ct2 T2 O2 g2 ->
  cell_at O1 e g1 "depth" r x y (Some a) -> cell_at O2 e g2 "depth" r x y w -> exists b, w = Some b /\ (b <= a)%Q.
Proof. intros Hr N1 N2 Hp G1 G2. apply (more_shoalest O1 O2 e r (all_points ct1) (all_points ct2) more); [..|exact Hp]; apply gridded_settled; auto. Qed.
(** The density grows by the number of new soundings in the cell. *)
Theorem C117_density e alg r ct1 ct2 more T1 (O1 : tile_ops T1) g1 T2 (O2 : tile_ops T2) g2 x y v w :
  alg = "mean" \/ alg = "shoalest" -> 0 < r -> ct1 <> [] -> ct2 <> [] -> all_points ct2 ≡ₚ all_points ct1 ++ more ->
  gridded e alg r ct1 T1 O1 g1 -> gridded e alg r ct2 T2 O2 g2 ->
  cell_at O1 e g1 "density" r x y v -> cell_at O2 e g2 "density" r x y w ->
  exists a b, v = Some a /\ w = Some b /\ (b == a + numQ (length (filter (fun p => in_square x y r (px p) (py p)) more)))%Q.
Proof. intros Ha Hr N1 N2 Hp G1 G2. apply (more_density O1 O2 e alg r (all_points ct1) (all_points ct2) more); [..|exact Hp]; apply gridded_settled; auto. Qed.

(** ** C118 *)
(** The same soundings gridded with 'shoalest' and with 'mean'. *)
Theorem C118_order e r ct1 ct2 T1 (O1 : tile_ops T1) g1 T2 (O2 : tile_ops T2) g2 x y v w :
  0 < r -> ct1 <> [] -> ct2 <> [] -> all_points ct1 ≡ₚ all_points ct2 ->
  gridded e "shoalest" r ct1 T1 O1 g1 -> gridded e "mean" r ct2 T2 O2 g2 ->
  cell_at O1 e g1 "depth" r x y v -> cell_at O2 e g2 "depth" r x y w ->
  match v, w with Some a, Some b => (a <= b)%Q | None, None => True | _, _ => False end.
Proof. intros Hr N1 N2 Hp G1 G2. apply (shoalest_mean O1 O2 e r (all_points ct1) (all_points ct2)); [..|exact Hp]; apply gridded_settled; auto. Qed.

(** ** C119 *)
(** The same soundings gridded at resolution [r] and at [k * r]: [f (i, j)] are the cells of side [r] in the cell with corner (x, y). *)
Theorem C119_shoalest e r k ct1 ct2 T1 (O1 : tile_ops T1) g1 T2 (O2 : tile_ops T2) g2 x y f w :
  0 < r -> (0 < k)%nat -> ct1 <> [] -> ct2 <> [] -> all_points ct1 ≡ₚ all_points ct2 ->
  gridded e "shoalest" r ct1 T1 O1 g1 -> gridded e "shoalest" (Z.of_nat k * r) ct2 T2 O2 g2 ->
  (forall i j, (i < k)%nat -> (j < k)%nat -> cell_at O1 e g1 "depth" r (x + Z.of_nat j * r) (y + Z.of_nat i * r) (f (i, j))) ->
  cell_at O2 e g2 "depth" (Z.of_nat k * r) x y w -> least_of (map f (parts k)) w.
Proof. intros Hr Hk N1 N2 Hp G1 G2. apply (coarse_shoalest O1 O2 e r k (all_points ct1) (all_points ct2)); [..|exact Hp]; apply gridded_settled; auto; lia. Qed.
Theorem C119_density e alg1 alg2 r k ct1 ct2 T1 (O1 : tile_ops T1) g1 T2 (O2 : tile_ops T2) g2 x y f w :
  alg1 = "mean" \/ alg1 = "shoalest" -> alg2 = "mean" \/ alg2 = "shoalest" ->
  0 < r -> (0 < k)%nat -> ct1 <> [] -> ct2 <> [] -> all_points ct1 ≡ₚ all_points ct2 ->
  gridded e alg1 r ct1 T1 O1 g1 -> gridded e alg2 (Z.of_nat k * r) ct2 T2 O2 g2 ->
  (forall i j, (i < k)%nat -> (j < k)%nat -> cell_at O1 e g1 "density" r (x + Z.of_nat j * r) (y + Z.of_nat i * r) (f (i, j))) ->
  cell_at O2 e g2 "density" (Z.of_nat k * r) x y w -> exists q, w = Some q /\ (q == sumQ (map (fun ij => default 0%Q (f ij)) (parts k)))%Q.
Proof. intros A1 A2 Hr Hk N1 N2 Hp G1 G2. apply (coarse_density O1 O2 e alg1 alg2 r k (all_points ct1) (all_points ct2)); [..|exact Hp]; apply gridded_settled; auto; lia. Qed.

(** ** C120 *)
(** All soundings moved by (dx, dy). (Cells with the corners (x, y) and (x + dx, y + dy) exist only if the resolution divides dx and dy, see C94_lattice.) *)
Theorem C120_moved e alg r dx dy ct1 ct2 T1 (O1 : tile_ops T1) g1 T2 (O2 : tile_ops T2) g2 l x y v w :
  alg = "mean" \/ alg = "shoalest" -> 0 < r -> ct1 <> [] -> ct2 <> [] -> all_points ct2 ≡ₚ map (moved dx dy 0) (all_points ct1) ->
  gridded e alg r ct1 T1 O1 g1 -> gridded e alg r ct2 T2 O2 g2 -> kept_layer e alg l ->
  cell_at O1 e g1 l r x y v -> cell_at O2 e g2 l r (x + dx) (y + dy) w -> same_cell v w.
Proof. intros Ha Hr N1 N2 Hp G1 G2. apply (moved_same O1 O2 e alg r dx dy (all_points ct1) (all_points ct2)); [..|exact Hp]; apply gridded_settled; auto. Qed.

(** ** C121 *)
(** All soundings deeper by [dz] (and moved as well): so are the depths, and the other layers are the same. *)
Theorem C121_depth e alg r dx dy dz ct1 ct2 T1 (O1 : tile_ops T1) g1 T2 (O2 : tile_ops T2) g2 x y v w :
  alg = "mean" \/ alg = "shoalest" -> 0 < r -> ct1 <> [] -> ct2 <> [] -> all_points ct2 ≡ₚ map (moved dx dy dz) (all_points ct1) ->
  gridded e alg r ct1 T1 O1 g1 -> gridded e alg r ct2 T2 O2 g2 ->
  cell_at O1 e g1 "depth" r x y v -> cell_at O2 e g2 "depth" r (x + dx) (y + dy) w -> offset_cell dz v w.
Proof. intros Ha Hr N1 N2 Hp G1 G2. apply (moved_depth O1 O2 e alg r dx dy dz (all_points ct1) (all_points ct2)); [..|exact Hp]; apply gridded_settled; auto. Qed.
Theorem C121_other e alg r dx dy dz ct1 ct2 T1 (O1 : tile_ops T1) g1 T2 (O2 : tile_ops T2) g2 l x y v w :
  alg = "mean" \/ alg = "shoalest" -> 0 < r -> ct1 <> [] -> ct2 <> [] -> all_points ct2 ≡ₚ map (moved dx dy dz) (all_points ct1) ->
  gridded e alg r ct1 T1 O1 g1 -> gridded e alg r ct2 T2 O2 g2 -> kept_layer e alg l -> l <> "depth" ->
  cell_at O1 e g1 l r x y v -> cell_at O2 e g2 l r (x + dx) (y + dy) w -> same_cell v w.
Proof. intros Ha Hr N1 N2 Hp G1 G2. apply (moved_other O1 O2 e alg r dx dy dz (all_points ct1) (all_points ct2)); [..|exact Hp]; apply gridded_settled; auto. Qed.

(** Soundings in one tile of side 8: two in the first cell of side 4, one in the last. *)
Definition near := [Point 1 1 10 1 1; Point 5 6 4 1 1; Point 2 3 7 1 1].
Definition one_of (d : list point) : sr_grid := sr_add (create_sr 8 false false true) d "one".
Definition shoal (r : Z) : gargs := grid_args "shoalest" r false "full".
Local Ltac one_grid d a := unfold sr_run; apply (Gridded_sr _ _ _ _ 8 false true (one_of d) a None);
  [lia|reflexivity| |split; reflexivity|intros E; discriminate E|vm_compute; reflexivity|apply Q_none];
  apply (CH_add _ _ _ _ (create_sr 8 false false true) [] d (args_of "one")); [apply CH_new|by vm_compute].
Local Ltac one_cell x0' y0' R C := unfold cell_at; eexists (Ext x0' y0' (x0' + 8) (y0' + 8)), _, R, C; split; [vm_compute; reflexivity|]; split; [vm_compute; reflexivity|];
  split; [reflexivity|]; split; [reflexivity|]; vm_compute; reflexivity.
(** One more sounding of depth 3 in the first cell: the shoalest depth 7 becomes 3. *)
Example C117_case :
  gridded env_s "shoalest" 4 [("one", near)] tile sr_ops (sr_run env_s (one_of near) (shoal 4)) /\
  gridded env_s "shoalest" 4 [("one", Point 2 2 3 1 1 :: near)] tile sr_ops (sr_run env_s (one_of (Point 2 2 3 1 1 :: near)) (shoal 4)) /\
  cell_at sr_ops env_s (sr_run env_s (one_of near) (shoal 4)) "depth" 4 0 0 (Some 7%Q) /\
  cell_at sr_ops env_s (sr_run env_s (one_of (Point 2 2 3 1 1 :: near)) (shoal 4)) "depth" 4 0 0 (Some 3%Q).
Proof.
  split; [one_grid near (shoal 4)|]. split; [one_grid (Point 2 2 3 1 1 :: near) (shoal 4)|]. split; one_cell 0 0 0%nat 0%nat.
Qed.
(** The mean of the same cell is 8.5. *)
Example C118_case :
  gridded env_s "mean" 4 [("one", near)] tile sr_ops (sr_run env_s (one_of near) mean_4) /\
  cell_at sr_ops env_s (sr_run env_s (one_of near) mean_4) "depth" 4 0 0 (Some (17 # 2)%Q).
Proof. split; [one_grid near mean_4|one_cell 0 0 0%nat 0%nat]. Qed.
(** The cell of side 8 has the least of 7 and 4; two of its four parts are empty. *)
Example C119_case :
  gridded env_s "shoalest" 8 [("one", near)] tile sr_ops (sr_run env_s (one_of near) (shoal 8)) /\
  cell_at sr_ops env_s (sr_run env_s (one_of near) (shoal 8)) "depth" 8 0 0 (Some 4%Q) /\
  cell_at sr_ops env_s (sr_run env_s (one_of near) (shoal 4)) "depth" 4 4 0 None /\
  cell_at sr_ops env_s (sr_run env_s (one_of near) (shoal 4)) "depth" 4 4 4 (Some 4%Q) /\
  least_of [Some 7%Q; None; None; Some 4%Q] (Some 4%Q).
Proof.
  split; [one_grid near (shoal 8)|]. split; [one_cell 0 0 0%nat 0%nat|]. split; [one_cell 0 0 0%nat 1%nat|]. split; [one_cell 0 0 1%nat 1%nat|].
  split; [exists 4%Q; split; [right; right; right; left|reflexivity]|]. intros a Ha. repeat (apply elem_of_cons in Ha as [[= ->]|Ha]); try (intros H; discriminate H). by apply elem_of_nil in Ha.
Qed.
(** Moved by one cell to the right and two down, and 0.3 deeper. *)
Definition near_moved := map (moved 4 (-8) (3 # 10)) near.
Example C120_case :
  gridded env_s "mean" 4 [("one", near_moved)] tile sr_ops (sr_run env_s (one_of near_moved) mean_4) /\
  cell_at sr_ops env_s (sr_run env_s (one_of near_moved) mean_4) "density" 4 4 (-8) (Some 2%Q) /\
  cell_at sr_ops env_s (sr_run env_s (one_of near) mean_4) "density" 4 0 0 (Some 2%Q).
Proof.
  split; [one_grid near_moved mean_4|]. split; [|one_cell 0 0 0%nat 0%nat].
  unfold cell_at. eexists (Ext 0 (-8) 16 0), _, 0%nat, 1%nat. split; [vm_compute; reflexivity|]. split; [vm_compute; reflexivity|]. split; [reflexivity|]. split; [reflexivity|]. vm_compute. reflexivity.
Qed.
Example C121_case : cell_at sr_ops env_s (sr_run env_s (one_of near_moved) mean_4) "depth" 4 4 (-8) (Some (44 # 5)%Q) /\ offset_cell (3 # 10) (Some (17 # 2)%Q) (Some (44 # 5)%Q).
Proof.
  split; [|vm_compute; split; [intros H; discriminate H|reflexivity]].
  unfold cell_at. eexists (Ext 0 (-8) 16 0), _, 0%nat, 1%nat. split; [vm_compute; reflexivity|]. split; [vm_compute; reflexivity|]. split; [reflexivity|]. split; [reflexivity|]. vm_compute. reflexivity.
Qed.
(** An offset of 0.001: depth 0.0005 is rounded to 0, depth 0.0015 to 0.002. *)
Example C121_tie : exists g1 g2, gridded env_s "mean" 4 [("one", [Point 1 1 (1 # 2000) 1 1])] tile sr_ops g1 /\ gridded env_s "mean" 4 [("one", [moved 0 0 (1 # 1000) (Point 1 1 (1 # 2000) 1 1)])] tile sr_ops g2 /\
  cell_at sr_ops env_s g1 "depth" 4 0 0 (Some 0%Q) /\ cell_at sr_ops env_s g2 "depth" 4 0 0 (Some (1 # 500)%Q).
Proof.
  exists (sr_run env_s (one_of [Point 1 1 (1 # 2000) 1 1]) mean_4), (sr_run env_s (one_of [moved 0 0 (1 # 1000) (Point 1 1 (1 # 2000) 1 1)]) mean_4).
  split; [one_grid [Point 1 1 (1 # 2000) 1 1] mean_4|]. split; [one_grid [moved 0 0 (1 # 1000) (Point 1 1 (1 # 2000) 1 1)] mean_4|]. split; one_cell 0 0 0%nat 0%nat.
Qed.

Print Assumptions C117_depth.
Print Assumptions C117_density.
Print Assumptions C118_order.
Print Assumptions C119_shoalest.
Print Assumptions C119_density.
Print Assumptions C120_moved.
Print Assumptions C121_depth.
Print Assumptions C121_other.
