(** Property C113: a grid with an output folder that is continued from that folder. *)
From Coq Require Import Lqa.
From Verif Require Import Py Nd Numpy Point Bin Algorithms Tile Time Meta Disk Grid GridRun GridQuery GridOps Export
  Spec TileExec GridExec WholeSpec Store StoreExec SessionSpec Samples GridSamples
  TileGridFacts TileRunFacts TilePropFacts GridBaseFacts GridEvolveFacts GridSrFacts GridUpdateFacts GridFlagFacts GridLayerFacts GridAnswerFacts GridWholeFacts GridRootFacts GridPropFacts
  GridStoreFacts GridLoadFacts GridSessionFacts GridOwnFacts Properties_GridState Properties_GridStore Properties_Recover.
Open Scope Z_scope.

(** ** C113 *)
(** False: after the first add_points the folder has no number of tiles. In the grid in memory the container can be removed and the
    tiles can be gridded in parallel; in the grid loaded from the folder both end with a TypeError. *)
Theorem C113_refuted : exists e size b zarr g f g' c a n, 0 < size /\ stored_history e size b zarr g f /\ load_sr f = Ok g' /\
  exn_of (g_remove_points sr_ops g c) = None /\ exn_of (g_remove_points sr_ops g' c) = Some TypeError /\
  exn_of (g_grid sr_ops e g a (Some n)) = None /\ exn_of (g_grid sr_ops e g' a (Some n)) = Some TypeError.
Proof.
  exists env_s, 8, false, false, (st_of steps_1), folder_1, (loaded sr_1 (load_sr folder_1)), "one", mean_4, 2%nat.
  split; [lia|]. split; [apply stored_1|]. split; [vm_compute; reflexivity|]. split; [vm_compute; reflexivity|]. split; [vm_compute; reflexivity|].
  split; vm_compute; reflexivity.
Qed.
(** This is so after the first add_points whatever the points are. *)
Theorem C113_first e size b zarr d a : 0 < size ->
  let r := g_add_points sr_ops (create_sr size b zarr true) (GoodData d) a in exn_of r = None ->
  exists g', load_sr (fs_run [] (ev_of r)) = Ok g' /\ m_ntiles (g_meta g') = None /\ is_Some (m_ntiles (g_meta (st_of r))) /\
    forall args n, is_Some (ga_rez args) -> exn_of (g_grid sr_ops e g' args (Some n)) = Some TypeError.
Proof. apply own_first. Qed.
(** Whatever is added, removed and gridded, and however often the grid was continued from its folder as in [own_sessions]: the folder
    loads and has the tiles of the grid and its attributes, except the number of tiles and the mean depth. *)
Theorem C113_loads_partial e size b zarr g f ct :
  0 < size -> own_sessions e known_args size b zarr g f ct -> ct <> [] ->
  exists g', load_sr f = Ok g' /\ same_tiles same_tile g g' /\ g_geom g' = g_geom g /\
    g_meta g = g_meta g' <| m_ntiles := m_ntiles (g_meta g) |> <| m_mean_depth := m_mean_depth (g_meta g) |>.
Proof.
  intros Hs H Hne. assert (HP : forall a, known_args a -> asked None a) by (intros; by split).
  destruct (own_load e None size b zarr Hs g f ct (own_sessions_inv e None known_args size b zarr Hs HP g f ct H) Hne) as (g' & n & q & L1 & L2 & L3 & _ & L5 & _).
  exists g'. split; [done|]. split; [by apply same_tiles_reloaded|]. split; [done|]. rewrite L3. by cbn.
Qed.
(** After gridding, and after the removal of a known container, it has all of them. *)
Theorem C113_grid_partial e size b zarr g f ct a dask :
  0 < size -> own_sessions e known_args size b zarr g f ct -> known_args a ->
  let r := g_grid sr_ops e g a dask in exn_of r = None ->
  exists g', load_sr (fs_run f (ev_of r)) = Ok g' /\ same_tiles same_tile (st_of r) g' /\ g_meta g' = g_meta (st_of r).
Proof.
  intros Hs H Ha. assert (HP : forall a, known_args a -> asked None a) by (intros; by split).
  by apply (own_grid_now e None known_args size b zarr Hs HP g f ct a dask).
Qed.
Theorem C113_remove_partial e size b zarr g f ct c :
  0 < size -> own_sessions e known_args size b zarr g f ct -> c ∈ dkeys (m_container (g_meta g)) ->
  let r := g_remove_points sr_ops g c in exn_of r = None ->
  exists g', load_sr (fs_run f (ev_of r)) = Ok g' /\ same_tiles same_tile (st_of r) g' /\ g_meta g' = g_meta (st_of r).
Proof.
  intros Hs H Hc. assert (HP : forall a, known_args a -> asked None a) by (intros; by split).
  by apply (own_remove_now e None known_args size b zarr Hs HP g f ct c).
Qed.
(** The tiles hold exactly the soundings added and not removed in all the sessions, each in the one square that contains it. *)
Theorem C113_soundings_partial e size b zarr g f ct :
  0 < size -> own_sessions e known_args size b zarr g f ct ->
  (forall k x y, origin_at g k = Some (x, y) ->
     let l := filter (fun p => in_square x y size (px p) (py p)) (all_points ct) in
     match tile_at g k with Some t => t_data t = Some l /\ l <> [] | None => l = [] end) /\
  (forall p, p ∈ all_points ct -> exists k x y, origin_at g k = Some (x, y) /\ in_square x y size (px p) (py p) /\
     forall k' x' y', origin_at g k' = Some (x', y') -> in_square x' y' size (px p) (py p) -> k' = k).
Proof.
  intros Hs H. assert (HP : forall a, known_args a -> asked None a) by (intros; by split).
  pose proof (ow_sess _ _ _ _ _ _ _ _ (own_sessions_inv e None known_args size b zarr Hs HP g f ct H)) as HS. pose proof HS as (seen & ok & HI). split.
  - intros k x y. by apply (sess_location e None size b zarr).
  - intros p. exact (root_cover (new_sr_meta 0 0 size b zarr) _ Hs _ _ _ _ _ HI).
Qed.
(** Sessions that grid with one algorithm and resolution only: gridding, in full mode or in update mode, returns normally unless another
    algorithm is recorded, also in parallel, and every layer then is the statistic of the soundings held. *)
Theorem C113_layers_partial e alg r size b zarr g f ct a dask :
  alg = "mean" \/ alg = "shoalest" -> 0 < size -> is_power_of_two (metres e r) = true -> 0 < r -> size mod r = 0 ->
  own_sessions e (fun a => ga_alg a = alg /\ ga_rez a = Some r) size b zarr g f ct -> ct <> [] -> ga_alg a = alg -> ga_rez a = Some r ->
  ga_clear a = true \/ m_algorithm (g_meta g) ∈ [""; alg] ->
  let g' := st_of (g_grid sr_ops e g a dask) in
  exn_of (g_grid sr_ops e g a dask) = None /\
  answers_by sr_ops e g' (if b then "intensity" else "depth") r (m_positive_up (g_meta g')) (all_points ct) (depth_by alg) /\
  forall up, answers_by sr_ops e g' "density" r up (all_points ct) (fun d v => v = Some (numQ (length d))) /\
    (alg = "mean" -> has_tvu (e_dt e) = true -> answers_by sr_ops e g' "vertical_uncertainty" r up (all_points ct) (fun d => mean_cell (map ptvu d))) /\
    (alg = "mean" -> has_thu (e_dt e) = true -> answers_by sr_ops e g' "horizontal_uncertainty" r up (all_points ct) (fun d => mean_cell (map pthu d))).
Proof.
  intros Halg Hs Hp Hr Hm H Hne Ha Hz Hd g'. destruct (simple_cases _ Halg) as [sa ->].
  assert (HP : forall a, ga_alg a = alg_name sa /\ ga_rez a = Some r -> asked (Some (sa, r)) a).
  { intros a0 H0. split; [|exact H0]. unfold known_args. rewrite (proj1 H0). apply alg_name_elem. }
  pose proof (ow_sess _ _ _ _ _ _ _ _ (own_sessions_inv e _ _ size b zarr Hs HP g f ct H)) as HS.
  pose proof (sess_total e _ size b zarr sa r g ct a dask Hs HS Hne Hp (conj Ha Hz) Hd) as Hx.
  destruct (sess_reflects e (Some (sa, r)) size b zarr Hs g ct sa r a dask HS Hne (HP a (conj Ha Hz)) (conj Ha Hz) (or_introl eq_refl) Hx) as (HR & lx & ly & nx & ny & HF).
  split; [exact Hx|]. destruct (frame_answers e (alg_name sa) r size b g' ct lx ly nx ny Halg Hs HF HR Hr Hm) as [D1 D2]. split; [|exact D2].
  destruct (D1 (m_positive_up (g_meta g'))) as [E1 E2]; [left; unfold eff_up; by destruct (m_positive_up (g_meta g'))|].
  unfold depth_by. by destruct sa; [apply E1|apply E2].
Qed.
Print Assumptions C113_refuted.
Print Assumptions C113_first.
Print Assumptions C113_loads_partial.
Print Assumptions C113_grid_partial.
Print Assumptions C113_remove_partial.
Print Assumptions C113_soundings_partial.
Print Assumptions C113_layers_partial.
(** First session: two containers, gridding; the program ends. Second session, from the folder: the first container is removed, which
    empties a tile; the program ends. Third session, from the folder: the changed tiles are gridded in parallel. *)
Definition own_2 := loaded sr_1 (load_sr folder_3).
Definition own_2_end := g_remove_points sr_ops own_2 "one".
Definition own_folder := fs_run folder_3 (ev_of own_2_end).
Definition own_3 := loaded sr_1 (load_sr own_folder).
Definition own_update := grid_args "mean" 4 false "update".
Lemma own_3_sessions : own_sessions env_s (fun a => ga_alg a = "mean" /\ ga_rez a = Some 4) 8 false false own_3 own_folder (drop_c [("one", pts_one); ("two", pts_two)] "one").
Proof.
  apply (OS_load _ _ _ _ _ (st_of own_2_end) own_folder); [|vm_compute; discriminate|vm_compute; reflexivity|vm_compute; reflexivity].
  apply (OS_remove _ _ _ _ _ own_2 folder_3 [("one", pts_one); ("two", pts_two)] "one"); [|vm_compute; reflexivity].
  apply (OS_load _ _ _ _ _ (st_of steps_3) folder_3); [|vm_compute; discriminate|vm_compute; reflexivity|vm_compute; reflexivity].
  apply (OS_grid _ _ _ _ _ (st_of steps_2) folder_2 [("one", pts_one); ("two", pts_two)] mean_4 None); [|split; reflexivity|vm_compute; reflexivity].
  apply (OS_add _ _ _ _ _ (st_of steps_1) folder_1 [("one", pts_one)] pts_two (args_of "two")); [|vm_compute; reflexivity].
  apply (OS_add _ _ _ _ _ (create_sr 8 false false true) [] [] pts_one (args_of "one")); [|vm_compute; reflexivity]. apply OS_new.
Qed.
Example C113_case : drop_c [("one", pts_one); ("two", pts_two)] "one" = [("two", pts_two)] /\ m_algorithm (g_meta own_3) = "mean" /\ m_ntiles (g_meta own_3) = Some 2 /\
  exn_of (g_grid sr_ops env_s own_3 own_update (Some 2%nat)) = None /\
  depth_of env_s (st_of (g_grid sr_ops env_s own_3 own_update (Some 2%nat))) = depth_of env_s (sr_run env_s (st_of (g_remove_points sr_ops sr_2 "one")) mean_4).
Proof.
  split; [vm_compute; reflexivity|]. split; [vm_compute; reflexivity|]. split; [vm_compute; reflexivity|]. split; vm_compute; reflexivity.
Qed.
(** With one more add_points before the end of a session the number of tiles in the folder is too small: removals then make it negative. *)
Definition stale_2 := loaded sr_1 (load_sr folder_2).
Example C113_stale : exn_of (g_remove_points sr_ops stale_2 "two") = None /\ m_ntiles (g_meta stale_2) = Some 2 /\ length (live_tiles stale_2) = 3%nat /\
  m_ntiles (g_meta (st_of (g_remove_points sr_ops (st_of (g_remove_points sr_ops stale_2 "two")) "one"))) = Some (-1).
Proof. split; [vm_compute; reflexivity|]. split; [vm_compute; reflexivity|]. split; vm_compute; reflexivity. Qed.
