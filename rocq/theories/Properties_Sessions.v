(** Property C108: grids that are saved, loaded and worked on again, any number of times. *)
From Coq Require Import Lqa.
From Verif Require Import Py Nd Numpy Point Bin Algorithms Tile Time Meta Disk Grid GridRun GridQuery GridOps Export
  Spec TileExec GridExec WholeSpec Store StoreExec SessionSpec Samples GridSamples
  TileGridFacts TileRunFacts TilePropFacts GridBaseFacts GridEvolveFacts GridSrFacts GridUpdateFacts GridFlagFacts GridLayerFacts GridAnswerFacts GridWholeFacts GridRootFacts GridPropFacts
  GridSessionFacts Properties_GridState Properties_GridStore Properties_Recover.
Open Scope Z_scope.

(** ** C108 *)
(** Such a grid that holds points can be saved to any folder, and loading that folder gives the same tiles in the same
    places and the same attributes. *)
Theorem C108_sr_saved e size b zarr g ct F :
  0 < size -> sr_sessions e known_args size b zarr g ct -> ct <> [] ->
  exn_of (save_sr_to g) = None /\
  exists g', load_sr (fs_run F (ev_of (save_sr_to g))) = Ok g' /\ same_tiles same_tile g g' /\ g_geom g' = g_geom g /\ g_meta g' = g_meta g.
Proof.
  intros Hs H Hne. assert (HP : forall a, known_args a -> asked None a) by (intros; by split).
  destruct (sess_save e None size b zarr Hs g ct F (sessions_inv e None known_args size b zarr Hs HP g ct H) Hne) as (H1 & g' & H2 & H3 & H4 & H5 & _). eauto 10.
Qed.
(** Its tiles hold exactly the soundings added and not removed in all the sessions, each in the one square that contains it. *)
Theorem C108_sr_soundings e size b zarr g ct :
  0 < size -> sr_sessions e known_args size b zarr g ct ->
  (forall k x y, origin_at g k = Some (x, y) ->
     let l := filter (fun p => in_square x y size (px p) (py p)) (all_points ct) in
     match tile_at g k with Some t => t_data t = Some l /\ l <> [] | None => l = [] end) /\
  (forall p, p ∈ all_points ct -> exists k x y, origin_at g k = Some (x, y) /\ in_square x y size (px p) (py p) /\
     forall k' x' y', origin_at g k' = Some (x', y') -> in_square x' y' size (px p) (py p) -> k' = k) /\
  (forall k t, tile_at g k = Some t -> is_Some (origin_at g k)).
Proof.
  intros Hs H. assert (HP : forall a, known_args a -> asked None a) by (intros; by split).
  pose proof (sessions_inv e None known_args size b zarr Hs HP g ct H) as HS. pose proof HS as (seen & ok & HI). split; [|split].
  - intros k x y. by apply (sess_location e None size b zarr).
  - intros p. exact (root_cover (new_sr_meta 0 0 size b zarr) _ Hs _ _ _ _ _ HI).
  - intros k t Ht. destruct (root_origin _ _ _ _ _ _ _ _ HI Ht) as (x & y & ->). by eexists.
Qed.
(** Gridding everything: it returns normally unless an algorithm of the sessions before differs and clear_existing is not given, and
    every layer then is the statistic of the soundings held. *)
Theorem C108_sr_layers e alg r size b zarr g ct a dask :
  alg = "mean" \/ alg = "shoalest" -> 0 < size -> is_power_of_two (metres e r) = true -> 0 < r -> size mod r = 0 ->
  sr_sessions e known_args size b zarr g ct -> ct <> [] -> ga_alg a = alg -> ga_rez a = Some r ->
  ga_regrid a <> "update" \/ ga_clear a = true -> ga_clear a = true \/ m_algorithm (g_meta g) ∈ [""; alg] ->
  let g' := st_of (g_grid sr_ops e g a dask) in
  exn_of (g_grid sr_ops e g a dask) = None /\
  answers_by sr_ops e g' (if b then "intensity" else "depth") r (m_positive_up (g_meta g')) (all_points ct) (depth_by alg) /\
  forall up, answers_by sr_ops e g' "density" r up (all_points ct) (fun d v => v = Some (numQ (length d))) /\
    (alg = "mean" -> has_tvu (e_dt e) = true -> answers_by sr_ops e g' "vertical_uncertainty" r up (all_points ct) (fun d => mean_cell (map ptvu d))) /\
    (alg = "mean" -> has_thu (e_dt e) = true -> answers_by sr_ops e g' "horizontal_uncertainty" r up (all_points ct) (fun d => mean_cell (map pthu d))).
Proof.
  intros Halg Hs Hp Hr Hm H Hne Ha Hz Hc Hd g'. destruct (simple_cases _ Halg) as [sa ->].
  assert (HP : forall a, known_args a -> asked None a) by (intros; by split).
  assert (HA : asked None a). { split; [|done]. unfold known_args. rewrite Ha. apply alg_name_elem. }
  pose proof (sess_total e None size b zarr sa r g ct a dask Hs (sessions_inv _ _ _ _ _ _ Hs HP _ _ H) Hne Hp (conj Ha Hz) Hd) as Hx.
  destruct (sess_reflects e None size b zarr Hs g ct sa r a dask (sessions_inv _ _ _ _ _ _ Hs HP _ _ H) Hne HA (conj Ha Hz) (or_intror Hc) Hx) as (HR & lx & ly & nx & ny & HF).
  split; [exact Hx|]. destruct (frame_answers e (alg_name sa) r size b g' ct lx ly nx ny Halg Hs HF HR Hr Hm) as [D1 D2]. split; [|exact D2].
  destruct (D1 (m_positive_up (g_meta g'))) as [E1 E2]; [left; unfold eff_up; by destruct (m_positive_up (g_meta g'))|].
  unfold depth_by. by destruct sa; [apply E1|apply E2].
Qed.
(** Sessions that grid with one algorithm and resolution only: the update of the tiles with changed points suffices. The marks of
    such tiles are kept in the folder. *)
Theorem C108_sr_update e alg r size b zarr g ct a dask :
  alg = "mean" \/ alg = "shoalest" -> 0 < size -> is_power_of_two (metres e r) = true -> 0 < r -> size mod r = 0 ->
  sr_sessions e (fun a => ga_alg a = alg /\ ga_rez a = Some r) size b zarr g ct -> ct <> [] -> ga_alg a = alg -> ga_rez a = Some r ->
  ga_clear a = true \/ m_algorithm (g_meta g) ∈ [""; alg] ->
  let g' := st_of (g_grid sr_ops e g a dask) in
  exn_of (g_grid sr_ops e g a dask) = None /\
  answers_by sr_ops e g' (if b then "intensity" else "depth") r (m_positive_up (g_meta g')) (all_points ct) (depth_by alg) /\
  forall up, answers_by sr_ops e g' "density" r up (all_points ct) (fun d v => v = Some (numQ (length d))) /\
    (alg = "mean" -> has_tvu (e_dt e) = true -> answers_by sr_ops e g' "vertical_uncertainty" r up (all_points ct) (fun d => mean_cell (map ptvu d))) /\
    (alg = "mean" -> has_thu (e_dt e) = true -> answers_by sr_ops e g' "horizontal_uncertainty" r up (all_points ct) (fun d => mean_cell (map pthu d))).
Proof.
  intros Halg Hs Hp Hr Hm H Hne Ha Hz Hd g'. destruct (simple_cases _ Halg) as [sa ->].
  assert (HP : forall a, ga_alg a = alg_name sa /\ ga_rez a = Some r -> asked (Some (sa, r)) a).
  { intros a0 H0. split; [|exact H0]. unfold known_args. rewrite (proj1 H0). apply alg_name_elem. }
  pose proof (sess_total e _ size b zarr sa r g ct a dask Hs (sessions_inv _ _ _ _ _ _ Hs HP _ _ H) Hne Hp (conj Ha Hz) Hd) as Hx.
  destruct (sess_reflects e (Some (sa, r)) size b zarr Hs g ct sa r a dask (sessions_inv _ _ _ _ _ _ Hs HP _ _ H) Hne (HP a (conj Ha Hz)) (conj Ha Hz) (or_introl eq_refl) Hx) as (HR & lx & ly & nx & ny & HF).
  split; [exact Hx|]. destruct (frame_answers e (alg_name sa) r size b g' ct lx ly nx ny Halg Hs HF HR Hr Hm) as [D1 D2]. split; [|exact D2].
  destruct (D1 (m_positive_up (g_meta g'))) as [E1 E2]; [left; unfold eff_up; by destruct (m_positive_up (g_meta g'))|].
  unfold depth_by. by destruct sa; [apply E1|apply E2].
Qed.
Print Assumptions C108_sr_saved.
Print Assumptions C108_sr_soundings.
Print Assumptions C108_sr_layers.
Print Assumptions C108_sr_update.
(** First session: two containers, gridding. Second: a third container is added, the first is removed, nothing is gridded. Third: the
    tiles with changed points are gridded. The depths are those of a grid that got the same points and was never saved. *)
Definition mean_update := grid_args "mean" 4 false "update".
Definition day_1 := st_of steps_3.
Definition day_2 := loaded day_1 (load_sr (fs_run [] (ev_of (save_sr_to day_1)))).
Definition work_2 := st_of (g_remove_points sr_ops (st_of (g_add_points sr_ops day_2 (GoodData pts_three) (args_of "three"))) "one").
Definition day_3 := loaded day_1 (load_sr (fs_run folder_3 (ev_of (save_sr_to work_2)))).
Definition work_3 := st_of (g_grid sr_ops env_s day_3 mean_update None).
Definition ct_day := drop_c ([("one", pts_one); ("two", pts_two)] ++ [("three", pts_three)]) "one".
Lemma day_3_sessions : sr_sessions env_s (fun a => ga_alg a = "mean" /\ ga_rez a = Some 4) 8 false false day_3 ct_day.
Proof.
  apply (SS_load _ _ _ _ _ work_2 ct_day folder_3); [|vm_compute; reflexivity|vm_compute; reflexivity].
  apply (SS_remove _ _ _ _ _ (st_of (g_add_points sr_ops day_2 (GoodData pts_three) (args_of "three"))) ([("one", pts_one); ("two", pts_two)] ++ [("three", pts_three)]) "one"); [|vm_compute; reflexivity].
  apply (SS_add _ _ _ _ _ day_2 [("one", pts_one); ("two", pts_two)] pts_three (args_of "three")); [|vm_compute; reflexivity].
  apply (SS_load _ _ _ _ _ day_1 [("one", pts_one); ("two", pts_two)] []); [|vm_compute; reflexivity|vm_compute; reflexivity].
  apply (SS_grid _ _ _ _ _ (st_of steps_2) [("one", pts_one); ("two", pts_two)] mean_4 None); [|split; reflexivity|vm_compute; reflexivity].
  apply (SS_add _ _ _ _ _ (st_of steps_1) [("one", pts_one)] pts_two (args_of "two")); [|vm_compute; reflexivity].
  apply (SS_add _ _ _ _ _ (create_sr 8 false false true) [] pts_one (args_of "one")); [|vm_compute; reflexivity]. apply SS_new.
Qed.
Example C108_case : ct_day = [("two", pts_two); ("three", pts_three)] /\ m_algorithm (g_meta day_3) = "mean" /\
  exn_of (g_grid sr_ops env_s day_3 mean_update None) = None /\ depth_of env_s day_3 <> depth_of env_s work_3 /\
  depth_of env_s work_3 = depth_of env_s (sr_run env_s (st_of (g_remove_points sr_ops (sr_add sr_2 pts_three "three") "one")) mean_4).
Proof.
  split; [vm_compute; reflexivity|]. split; [vm_compute; reflexivity|]. split; [vm_compute; reflexivity|]. split; [vm_compute; discriminate|]. vm_compute. reflexivity.
Qed.
