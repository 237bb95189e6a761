(** The layers of single containers next to the depths of all soundings: C136. *)
From Verif Require Import Py Nd Numpy Point Bin Algorithms Tile Time Meta Disk Grid GridRun GridQuery GridOps Export
  Spec TileExec GridExec WholeSpec SameSpec CompareSpec EnvelopeSpec Samples GridSamples GridSameFacts EnvelopeFacts Properties_Same.
Open Scope Z_scope.

(** ** C136 *)
(** Every cell of the depth layer is a cell of the layer of every container. *)
Theorem C136_there e alg r ct T (O : tile_ops T) g x y w :
  alg = "mean" \/ alg = "shoalest" -> 0 < r -> ct <> [] -> gridded e alg r ct T O g -> plain_names ct -> cell_at O e g "depth" r x y w ->
  exists vs, Forall2 (fun cd v => container_at O e g cd.1 r x y v) ct vs.
Proof. intros Ha Hr Hne HG HP. exact (container_there e alg r ct T O g Ha Hr Hne HG HP x y w). Qed.
Theorem C136_shoalest e r ct T (O : tile_ops T) g x y vs w :
  0 < r -> ct <> [] -> gridded e "shoalest" r ct T O g -> plain_names ct ->
  Forall2 (fun cd v => container_at O e g cd.1 r x y v) ct vs -> cell_at O e g "depth" r x y w -> least_of vs w.
Proof.
  intros Hr Hne HG HP Hv Hw. pose proof (gridded_settled e "shoalest" r ct T O g (or_intror eq_refl) Hr Hne HG) as S.
  destruct (settled_cell _ _ _ _ _ _ _ S (or_introl eq_refl) _ _ _ Hw) as [A _]. change (least_cell (map pz (points_at r x y (all_points ct))) w) in A.
  rewrite points_all in A. exact (least_all _ _ _ (container_points e "shoalest" r ct T O g (or_intror eq_refl) Hr Hne HG HP x y vs Hv) A).
Qed.
Theorem C136_mean e r ct T (O : tile_ops T) g x y vs w :
  0 < r -> ct <> [] -> gridded e "mean" r ct T O g -> plain_names ct ->
  Forall2 (fun cd v => container_at O e g cd.1 r x y v) ct vs -> cell_at O e g "depth" r x y w -> between_of vs w.
Proof.
  intros Hr Hne HG HP Hv Hw. pose proof (gridded_settled e "mean" r ct T O g (or_introl eq_refl) Hr Hne HG) as S.
  destruct (settled_cell _ _ _ _ _ _ _ S (or_introl eq_refl) _ _ _ Hw) as [A _]. change (mean_cell (map pz (points_at r x y (all_points ct))) w) in A.
  rewrite points_all in A. exact (mean_all _ _ _ (container_points e "mean" r ct T O g (or_introl eq_refl) Hr Hne HG HP x y vs Hv) A).
Qed.

(** Two containers in one cell, with means 7 and 10, and 9 for all three soundings; the shoalest depth of all is that of the first container. *)
Definition here_1 := [Point 1 1 7 1 1].
Definition here_2 := [Point 2 1 12 1 1; Point 3 3 8 1 1].
Definition here_ct := [("one", here_1); ("two", here_2)].
Definition here := sr_add (sr_add (create_sr 8 false false true) here_1 "one") here_2 "two".
Definition shoal_4 := grid_args "shoalest" 4 false "full".
Local Ltac here_grid a := unfold sr_run; apply (Gridded_sr _ _ _ _ 8 false true here a None);
  [lia|reflexivity| |split; reflexivity|intros E; discriminate E|vm_compute; reflexivity|apply Q_none];
  apply (CH_add _ _ _ _ (sr_add (create_sr 8 false false true) here_1 "one") [("one", here_1)] here_2 (args_of "two")); [|by vm_compute];
  apply (CH_add _ _ _ _ (create_sr 8 false false true) [] here_1 (args_of "one")); [apply CH_new|by vm_compute].
Local Ltac here_same := split; [vm_compute; reflexivity|]; split; [vm_compute; reflexivity|]; split; [reflexivity|]; split; [reflexivity|]; vm_compute; reflexivity.
Local Ltac here_cell := unfold cell_at; eexists (Ext 0 0 16 16), _, 0%nat, 0%nat; here_same.
Local Ltac here_one := unfold container_at; eexists (Ext 0 0 16 16), _, 0%nat, 0%nat, _; here_same.
Local Ltac here_cells := apply List.Forall2_cons; [here_one|]; apply List.Forall2_cons; [here_one|apply List.Forall2_nil].
Example C136_case :
  gridded env_s "mean" 4 here_ct tile sr_ops (sr_run env_s here mean_4) /\ plain_names here_ct /\
  Forall2 (fun cd v => container_at sr_ops env_s (sr_run env_s here mean_4) cd.1 4 0 0 v) here_ct [Some 7%Q; Some 10%Q] /\
  cell_at sr_ops env_s (sr_run env_s here mean_4) "depth" 4 0 0 (Some 9%Q) /\
  gridded env_s "shoalest" 4 here_ct tile sr_ops (sr_run env_s here shoal_4) /\
  Forall2 (fun cd v => container_at sr_ops env_s (sr_run env_s here shoal_4) cd.1 4 0 0 v) here_ct [Some 7%Q; Some 8%Q] /\
  cell_at sr_ops env_s (sr_run env_s here shoal_4) "depth" 4 0 0 (Some 7%Q).
Proof.
  split; [here_grid mean_4|]. split; [repeat constructor; apply (bool_decide_unpack _); vm_compute; exact I|].
  split; [here_cells|]. split; [here_cell|]. split; [here_grid shoal_4|]. split; [here_cells|here_cell].
Qed.

Print Assumptions C136_there.
Print Assumptions C136_shoalest.
Print Assumptions C136_mean.
