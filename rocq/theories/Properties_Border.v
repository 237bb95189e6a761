(** Border points of variable resolution grids and gridding them with CUBE: C97, C98. *)
From Verif Require Import Py Nd Numpy Point Bin Algorithms Tile Meta Grid GridRun GridQuery GridOps Spec TileExec GridExec BorderSpec TileRunFacts GridUpdateFacts GridRunFacts GridFlagFacts GridExportFacts GridRecoverFacts GridBorderFacts Samples GridSamples.
Open Scope Z_scope.

(** Two tiles of side 16 next to each other with one sounding in each sub-tile of side 8; the same with one
    sounding in each tile. *)
Definition pts_full := [Point 1 1 10 1 1; Point 9 1 20 1 1; Point 1 9 30 1 1; Point 9 9 40 1 1;
                        Point 17 1 50 1 1; Point 25 1 60 1 1; Point 17 9 70 1 1; Point 25 9 80 1 1].
Definition pts_part := [Point 1 1 10 1 1; Point 17 1 50 1 1].
Definition full_1 := vr_add (create_vr 16 8 false false true) pts_full "one".
Definition part_1 := vr_add (create_vr 16 8 false false true) pts_part "one".
Definition cube_4 := grid_args "cube" 4 false "full".
Example full_1_clean P : vr_clean env_count P 16 8 false false true full_1 [("one", pts_full)].
Proof. apply (CH_add _ _ _ _ _ [] pts_full (args_of "one")); [apply CH_new|by vm_compute]. Qed.
Example part_1_clean P : vr_clean env_count P 16 8 false false true part_1 [("one", pts_part)].
Proof. apply (CH_add _ _ _ _ _ [] pts_part (args_of "one")); [apply CH_new|by vm_compute]. Qed.
Example full_1_history : vr_history env_count 16 8 false false true full_1 [("one", pts_full)] pts_full true.
Proof. apply (GH_add _ _ _ _ [] [] true pts_full (args_of "one")); [apply GH_new|by vm_compute]. Qed.
Example part_1_history : vr_history env_count 16 8 false false true part_1 [("one", pts_part)] pts_part true.
Proof. apply (GH_add _ _ _ _ [] [] true pts_part (args_of "one")); [apply GH_new|by vm_compute]. Qed.

Example full_1_every k sg : tile_at full_1 k = Some sg -> every_location sg.
Proof.
  destruct k as [|[|k]]; intros Hk; vm_compute in Hk; [| |done]; injection Hk as <-;
    (intros j uv Hj; destruct j as [|[|[|[|j]]]]; [vm_compute; by eexists..|vm_compute in Hj; done]).
Qed.

(** ** C97 *)
(** Points far from the border are returned too; and the call fails when a neighbouring sub-grid has a
    location without a tile. *)
Theorem C97_border_points_refuted :
  (exists e size sub b zarr disk g ct seen ok k x y q o p, 0 < sub /\ size mod sub = 0 /\ vr_history e size sub b zarr disk g ct seen ok /\
     origin_at g k = Some (x, y) /\ get_tile_neighbor_points vr_ops g k q = Ok (Some o) /\ p ∈ o /\ p ∉ border_points size x y q (all_points ct)) /\
  (exists e size sub b zarr disk g ct seen ok k x y q p, 0 < sub /\ size mod sub = 0 /\ vr_history e size sub b zarr disk g ct seen ok /\
     origin_at g k = Some (x, y) /\ p ∈ border_points size x y q (all_points ct) /\ get_tile_neighbor_points vr_ops g k q = Raise AttributeError).
Proof.
  split.
  - exists env_count, 16, 8, false, false, true, full_1, [("one", pts_full)], pts_full, true, 0%nat, 0, 0, 2%Q,
      [Point 17 1 50 1 1; Point 25 1 60 1 1; Point 17 9 70 1 1; Point 25 9 80 1 1], (Point 25 1 60 1 1).
    split; [lia|]. split; [done|]. split; [apply full_1_history|]. split; [by vm_compute|]. split; [by vm_compute|].
    split; [right; left|].
    assert (E : border_points 16 0 0 2 (all_points [("one", pts_full)]) = [Point 17 1 50 1 1; Point 17 9 70 1 1]) by (vm_compute; reflexivity).
    rewrite E. intros H. apply elem_of_list_In in H. cbn in H. destruct H as [H|[H|[]]]; discriminate.
  - exists env_count, 16, 8, false, false, true, part_1, [("one", pts_part)], pts_part, true, 0%nat, 0, 0, 2%Q, (Point 17 1 50 1 1).
    split; [lia|]. split; [done|]. split; [apply part_1_history|]. split; [by vm_compute|]. split; [|by vm_compute].
    assert (E : border_points 16 0 0 2 (all_points [("one", pts_part)]) = [Point 17 1 50 1 1]) by (vm_compute; reflexivity).
    rewrite E. left.
Qed.
Print Assumptions C97_border_points_refuted.

(** What is returned: the points of the neighbouring tiles near the corresponding side of their own sub-tile,
    each once, provided every location of the neighbouring sub-grids holds a tile. *)
Theorem C97_vr_own_sides_partial e size sub b zarr disk g ct seen ok k x y q :
  0 < size -> 0 < sub -> vr_history e size sub b zarr disk g ct seen ok -> ct <> [] -> origin_at g k = Some (x, y) ->
  (forall sg, beside g size x y sg -> every_location sg) ->
  exists o, get_tile_neighbor_points vr_ops g k q = Ok o /\ o <> Some [] /\
    default [] o ≡ₚ sub_border_points size sub x y q (all_points ct).
Proof.
  intros Hs Hsub H Hne Ho Hev.
  destruct (root_placed _ _ _ _ _ _ (vr_sound_inv e size sub b zarr disk Hs Hsub g ct seen ok H) Hne) as (lx & ly & nx & ny & a & HP).
  by apply (vr_border_points size sub b zarr Hs Hsub g ct lx ly nx ny a).
Qed.
(** Otherwise the call fails. *)
Theorem C97_vr_raises_partial e size sub b zarr disk g ct seen ok k x y q sg :
  0 < size -> 0 < sub -> vr_history e size sub b zarr disk g ct seen ok -> ct <> [] -> origin_at g k = Some (x, y) ->
  beside g size x y sg -> ~ every_location sg -> get_tile_neighbor_points vr_ops g k q = Raise AttributeError.
Proof.
  intros Hs Hsub H Hne Ho Hb Hno.
  destruct (root_placed _ _ _ _ _ _ (vr_sound_inv e size sub b zarr disk Hs Hsub g ct seen ok H) Hne) as (lx & ly & nx & ny & a & HP).
  apply (vr_border_raises size sub b zarr Hs Hsub g ct lx ly nx ny a k x y q HP Ho). by exists sg.
Qed.
(** None of the points near the border of the tile is missing, when tiles are made of whole sub-tiles. *)
Theorem C97_vr_complete_partial e size sub b zarr disk g ct seen ok k x y q o :
  0 < size -> 0 < sub -> size mod sub = 0 -> vr_history e size sub b zarr disk g ct seen ok -> ct <> [] -> origin_at g k = Some (x, y) ->
  get_tile_neighbor_points vr_ops g k q = Ok o -> forall p, p ∈ border_points size x y q (all_points ct) -> p ∈ default [] o.
Proof.
  intros Hs Hsub Hm H Hne Ho Hq p Hp.
  destruct (root_placed _ _ _ _ _ _ (vr_sound_inv e size sub b zarr disk Hs Hsub g ct seen ok H) Hne) as (lx & ly & nx & ny & a & HP).
  destruct (vr_border_points size sub b zarr Hs Hsub g ct lx ly nx ny a k x y q HP Ho) as (o' & H1 & _ & H2).
  { by apply (vr_border_every size sub b zarr Hs Hsub g ct lx ly nx ny a k x y q HP Ho o). }
  rewrite Hq in H1. injection H1 as <-. rewrite H2. by apply border_sub_border.
Qed.
Print Assumptions C97_vr_own_sides_partial.
Print Assumptions C97_vr_raises_partial.
Print Assumptions C97_vr_complete_partial.
Example C97_case :
  origin_at full_1 0 = Some (0, 0) /\ origin_at full_1 1 = Some (16, 0) /\
  (forall sg, beside full_1 16 0 0 sg -> every_location sg) /\
  get_tile_neighbor_points vr_ops full_1 0 2 = Ok (Some [Point 17 1 50 1 1; Point 25 1 60 1 1; Point 17 9 70 1 1; Point 25 9 80 1 1]) /\
  border_points 16 0 0 2 pts_full = [Point 17 1 50 1 1; Point 17 9 70 1 1] /\
  get_tile_neighbor_points vr_ops full_1 1 2 = Ok None /\ get_tile_neighbor_points vr_ops part_1 0 2 = Raise AttributeError.
Proof.
  split; [by vm_compute|]. split; [by vm_compute|]. split; [|by vm_compute].
  intros sg (k & u & v & Hk & _). by apply (full_1_every k).
Qed.

(** ** C98 *)
(** A grid with a partly filled tile beside another cannot be gridded with CUBE. *)
Theorem C98_cube_refuted : exists e size sub b zarr disk g ct a r,
  0 < sub /\ size mod sub = 0 /\ vr_clean e (fun a => ga_alg a = "cube") size sub b zarr disk g ct /\ ct <> [] /\
  ga_alg a = "cube" /\ ga_rez a = Some r /\ is_power_of_two (metres e r) = true /\ cube_ready e /\
  exn_of (g_grid vr_ops e g a None) = Some AttributeError.
Proof.
  exists env_count, 16, 8, false, false, true, part_1, [("one", pts_part)], cube_4, 4.
  split; [lia|]. split; [done|]. split; [apply part_1_clean|]. split; [done|]. split; [done|]. split; [done|]. split; [done|]. split; [done|].
  vm_compute. reflexivity.
Qed.
Print Assumptions C98_cube_refuted.
(** It can when every tile that shares a side with another has a sub-tile at each of its locations. *)
Theorem C98_vr_returns_partial e size sub b zarr disk g ct a dask r :
  0 < size -> 0 < sub -> vr_clean e (fun a => ga_alg a = "cube") size sub b zarr disk g ct -> ct <> [] ->
  ga_alg a = "cube" -> ga_rez a = Some r -> is_power_of_two (metres e r) = true ->
  e_cube_enabled e = true -> has_tvu (e_dt e) = true -> has_thu (e_dt e) = true ->
  (forall k x y sg0 sg, tile_at g k = Some sg0 -> origin_at g k = Some (x, y) -> beside g size x y sg -> every_location sg) ->
  exn_of (g_grid vr_ops e g a dask) = None.
Proof.
  intros Hs Hsub H Hne Ha Hr Hp Q1 Q2 Q3 Hev. apply (vr_cube_returns e (fun a => ga_alg a = "cube") size sub b zarr disk g ct a dask r); try done.
  - intros a0 H0. unfold known_args. rewrite H0. right; right; left.
  - eapply (alg_mismatch _ (fun a => ga_alg a = "cube")); [done|done|]. by eapply vr_clean_alg.
Qed.
(** And it cannot otherwise, after any calls, unless the tile in question is skipped. *)
Theorem C98_vr_fails_partial e size sub b zarr disk g ct seen ok a dask k x y sg0 sg :
  0 < size -> 0 < sub -> vr_history e size sub b zarr disk g ct seen ok -> ga_alg a = "cube" -> ga_regrid a = "full" \/ ga_clear a = true ->
  tile_at g k = Some sg0 -> origin_at g k = Some (x, y) -> beside g size x y sg -> ~ every_location sg ->
  exn_of (g_grid vr_ops e g a dask) <> None.
Proof. intros Hs Hsub H Ha Hrg. eapply vr_cube_stops; try done. destruct Hrg as [->|]; [by left|by right]. Qed.
Print Assumptions C98_vr_returns_partial.
Print Assumptions C98_vr_fails_partial.
Example C98_case :
  vr_clean env_count (fun a => ga_alg a = "cube") 16 8 false false true full_1 [("one", pts_full)] /\
  (forall k x y sg0 sg, tile_at full_1 k = Some sg0 -> origin_at full_1 k = Some (x, y) -> beside full_1 16 x y sg -> every_location sg) /\
  exn_of (g_grid vr_ops env_count full_1 cube_4 None) = None /\ exn_of (g_grid vr_ops env_count full_1 cube_4 (Some 2%nat)) = None /\
  exn_of (g_grid vr_ops env_count part_1 cube_4 (Some 2%nat)) = Some AttributeError.
Proof.
  split; [apply full_1_clean|]. split; [|vm_compute; by repeat split].
  intros k x y sg0 sg _ _ (j & u & v & Hj & _). by apply (full_1_every j).
Qed.

(** ** C26 for variable resolution grids *)
(** The outcome does not depend on the number of workers when the resolution is chosen by the grid itself,
    and when three cells are at least a tenth of the tile. *)
Theorem C26_vr_cube_partial e size sub b zarr disk g ct seen ok a d1 d2 :
  0 < size -> 0 < sub -> vr_history e size sub b zarr disk g ct seen ok ->
  match ga_rez a with Some r => size <= 30 * r | None => ga_mode a <> "" end ->
  (exn_of (g_grid vr_ops e g a d1) = None <-> exn_of (g_grid vr_ops e g a d2) = None) /\
  (exn_of (g_grid vr_ops e g a d1) = None -> st_of (g_grid vr_ops e g a d1) = st_of (g_grid vr_ops e g a d2)).
Proof.
  intros Hs Hsub H Hr. eapply vr_dask; [exact Hs|exact Hsub|exact H|]. intros rez k sg Hc Ht. apply (same_borders _ _ _ _ _ _ _ _ _ Hc).
  cbn. by rewrite (vr_tile_width e size sub b zarr disk g ct seen ok k sg Hs Hsub H Ht).
Qed.
Print Assumptions C26_vr_cube_partial.
Example C26_vr_case : ga_rez cube_4 = Some 4 /\ 16 <= 30 * 4 /\ exn_of (g_grid vr_ops env_count full_1 cube_4 None) = None /\
  map (fun sg => map (fun t => option_map nflat (layer_of t 4 "depth")) (live_tiles sg)) (live_tiles (st_of (g_grid vr_ops env_count full_1 cube_4 (Some 2%nat)))) =
  map (fun sg => map (fun t => option_map nflat (layer_of t 4 "depth")) (live_tiles sg)) (live_tiles (st_of (g_grid vr_ops env_count full_1 cube_4 None))).
Proof. vm_compute. by repeat split. Qed.
