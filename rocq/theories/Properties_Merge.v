(** Grids of two sets of soundings and of each: C129, and the soundings a cell depends on: C130. *)
From Verif Require Import Py Nd Numpy Point Bin Algorithms Tile Time Meta Disk Grid GridRun GridQuery GridOps Export
  Spec TileExec GridExec WholeSpec SameSpec CompareSpec MergeSpec Samples GridSamples GridSameFacts CompareFacts MergeFacts Properties_Same Properties_Compare.
Open Scope Z_scope.

(** ** C129 *)
(** [g] holds the soundings of [g1] and those of [g2], for instance of two surveys; each of the three may be of either kind and have any history. *)
Theorem C129_shoalest e r ct1 ct2 ct T1 (O1 : tile_ops T1) g1 T2 (O2 : tile_ops T2) g2 T (O : tile_ops T) g x y v1 v2 w :
  0 < r -> ct1 <> [] -> ct2 <> [] -> ct <> [] -> all_points ct ≡ₚ all_points ct1 ++ all_points ct2 ->
  gridded e "shoalest" r ct1 T1 O1 g1 -> gridded e "shoalest" r ct2 T2 O2 g2 -> gridded e "shoalest" r ct T O g ->
  cell_at O1 e g1 "depth" r x y v1 -> cell_at O2 e g2 "depth" r x y v2 -> cell_at O e g "depth" r x y w -> least_of [v1; v2] w.
Proof. intros Hr N1 N2 N Hp G1 G2 G. apply (both_shoalest O1 O2 O e r _ _ _ g1 g2 g x y Hp); apply gridded_settled; auto. Qed.
Theorem C129_density e alg1 alg2 alg r ct1 ct2 ct T1 (O1 : tile_ops T1) g1 T2 (O2 : tile_ops T2) g2 T (O : tile_ops T) g x y v1 v2 w :
  alg1 = "mean" \/ alg1 = "shoalest" -> alg2 = "mean" \/ alg2 = "shoalest" -> alg = "mean" \/ alg = "shoalest" ->
  0 < r -> ct1 <> [] -> ct2 <> [] -> ct <> [] -> all_points ct ≡ₚ all_points ct1 ++ all_points ct2 ->
  gridded e alg1 r ct1 T1 O1 g1 -> gridded e alg2 r ct2 T2 O2 g2 -> gridded e alg r ct T O g ->
  cell_at O1 e g1 "density" r x y v1 -> cell_at O2 e g2 "density" r x y v2 -> cell_at O e g "density" r x y w ->
  exists a b c, v1 = Some a /\ v2 = Some b /\ w = Some c /\ (c == a + b)%Q.
Proof. intros A1 A2 A Hr N1 N2 N Hp G1 G2 G. apply (both_density O1 O2 O e r _ _ _ g1 g2 g x y Hp alg1 alg2 alg); apply gridded_settled; auto. Qed.
(** Depths and uncertainties of 'mean', weighted with the densities [n1] and [n2] of the two grids. *)
Theorem C129_mean e r ct1 ct2 ct T1 (O1 : tile_ops T1) g1 T2 (O2 : tile_ops T2) g2 T (O : tile_ops T) g l x y v1 v2 n1 n2 w :
  0 < r -> ct1 <> [] -> ct2 <> [] -> ct <> [] -> all_points ct ≡ₚ all_points ct1 ++ all_points ct2 ->
  gridded e "mean" r ct1 T1 O1 g1 -> gridded e "mean" r ct2 T2 O2 g2 -> gridded e "mean" r ct T O g -> kept_layer e "mean" l -> l <> "density" ->
  cell_at O1 e g1 l r x y v1 -> cell_at O2 e g2 l r x y v2 -> cell_at O e g l r x y w ->
  cell_at O1 e g1 "density" r x y (Some n1) -> cell_at O2 e g2 "density" r x y (Some n2) -> mean_of_both n1 n2 v1 v2 w.
Proof. intros Hr N1 N2 N Hp G1 G2 G. apply (both_mean O1 O2 O e r _ _ _ g1 g2 g x y Hp); apply gridded_settled; auto. Qed.

(** ** C130 *)
(** Two grids with the same soundings in the square of a cell, whatever they hold elsewhere. *)
Theorem C130_local e alg r ct1 ct2 T1 (O1 : tile_ops T1) g1 T2 (O2 : tile_ops T2) g2 l x y v w :
  alg = "mean" \/ alg = "shoalest" -> 0 < r -> ct1 <> [] -> ct2 <> [] ->
  filter (fun p => in_square x y r (px p) (py p)) (all_points ct1) ≡ₚ filter (fun p => in_square x y r (px p) (py p)) (all_points ct2) ->
  gridded e alg r ct1 T1 O1 g1 -> gridded e alg r ct2 T2 O2 g2 -> kept_layer e alg l ->
  cell_at O1 e g1 l r x y v -> cell_at O2 e g2 l r x y w -> same_cell v w.
Proof. intros Ha Hr N1 N2 Hp G1 G2. apply (local_same O1 O2 e alg r (all_points ct1) (all_points ct2)); [..|exact Hp]; apply gridded_settled; auto. Qed.

Local Ltac one_grid d a := unfold sr_run; apply (Gridded_sr _ _ _ _ 8 false true (one_of d) a None);
  [lia|reflexivity| |split; reflexivity|intros E; discriminate E|vm_compute; reflexivity|apply Q_none];
  apply (CH_add _ _ _ _ (create_sr 8 false false true) [] d (args_of "one")); [apply CH_new|by vm_compute].
Local Ltac one_cell x0' y0' R C := unfold cell_at; eexists (Ext x0' y0' (x0' + 8) (y0' + 8)), _, R, C; split; [vm_compute; reflexivity|]; split; [vm_compute; reflexivity|];
  split; [reflexivity|]; split; [reflexivity|]; vm_compute; reflexivity.
(** Two soundings with mean 8.5 and one of depth 4 in the same cell: the mean of all is 7. *)
Definition far := [Point 3 1 4 1 1; Point 7 1 20 1 1].
Example C129_case :
  gridded env_s "mean" 4 [("one", near)] tile sr_ops (sr_run env_s (one_of near) mean_4) /\
  gridded env_s "mean" 4 [("one", far)] tile sr_ops (sr_run env_s (one_of far) mean_4) /\
  gridded env_s "mean" 4 [("one", near ++ far)] tile sr_ops (sr_run env_s (one_of (near ++ far)) mean_4) /\
  cell_at sr_ops env_s (sr_run env_s (one_of near) mean_4) "depth" 4 0 0 (Some (17 # 2)%Q) /\
  cell_at sr_ops env_s (sr_run env_s (one_of far) mean_4) "depth" 4 0 0 (Some 4%Q) /\
  cell_at sr_ops env_s (sr_run env_s (one_of (near ++ far)) mean_4) "depth" 4 0 0 (Some 7%Q) /\
  mean_of_both 2 1 (Some (17 # 2)%Q) (Some 4%Q) (Some 7%Q).
Proof.
  split; [one_grid near mean_4|]. split; [one_grid far mean_4|]. split; [one_grid (near ++ far) mean_4|]. split; [one_cell 0 0 0%nat 0%nat|]. split; [one_cell 0 0 0%nat 0%nat|].
  split; [one_cell 0 0 0%nat 0%nat|]. vm_compute. split; [intros H; discriminate H|]. split; [right|left]; intros H; discriminate H.
Qed.
(** The last cell of both has one sounding of depth 4. *)
Example C130_case :
  cell_at sr_ops env_s (sr_run env_s (one_of near) mean_4) "depth" 4 4 4 (Some 4%Q) /\
  cell_at sr_ops env_s (sr_run env_s (one_of (near ++ far)) mean_4) "depth" 4 4 4 (Some 4%Q) /\
  filter (fun p => in_square 4 4 4 (px p) (py p)) near = filter (fun p => in_square 4 4 4 (px p) (py p)) (near ++ far) /\
  length (filter (fun p => in_square 4 4 4 (px p) (py p)) near) = 1%nat.
Proof. split; [one_cell 0 0 1%nat 1%nat|]. split; [one_cell 0 0 1%nat 1%nat|]. split; vm_compute; reflexivity. Qed.

Print Assumptions C129_shoalest.
Print Assumptions C129_density.
Print Assumptions C129_mean.
Print Assumptions C130_local.
