(** Property C112: variable resolution grids that are saved, loaded and worked on again, any number of times. *)
From Coq Require Import Lqa.
From Verif Require Import Py Nd Numpy Point Bin Algorithms Tile Time Meta Disk Grid GridRun GridQuery GridOps Export
  Spec TileExec GridExec WholeSpec Store StoreExec SessionSpec Samples GridSamples
  TileGridFacts TileRunFacts TilePropFacts GridBaseFacts GridEvolveFacts GridSrFacts GridUpdateFacts GridFlagFacts GridLayerFacts GridAnswerFacts GridWholeFacts GridRootFacts GridPropFacts
  GridSessionFacts GridVrSessionFacts Properties_GridState Properties_GridStore Properties_Recover.
Open Scope Z_scope.

(** ** C112 *)
(** Such a grid that holds points can be saved, and loading the folder gives the same sub-grids with the same tiles in the same
    places and the same attributes. The folder has no sub-grids where the grid has none (see C77). *)
Theorem C112_vr_saved e size sub b zarr g ct F :
  0 < size -> 0 < sub -> vr_sessions e known_args size sub b zarr g ct -> ct <> [] ->
  (forall k x y, origin_at g k = Some (x, y) -> tile_at g k = None -> fs_exists F [FFolder (NTile x y)] = false) ->
  exn_of (save_vr_to g) = None /\
  exists g', load_vr (fs_run F (ev_of (save_vr_to g))) = Ok g' /\ same_tiles same_sub g g' /\ g_geom g' = g_geom g /\ g_meta g' = g_meta g.
Proof.
  intros Hs Hsub H Hne HF. assert (HP : forall a, known_args a -> asked None a) by (intros; by split).
  destruct (vsess_save e None size sub b zarr Hs Hsub g ct F (vr_sessions_inv e None known_args size sub b zarr Hs Hsub HP g ct H) Hne HF) as (H1 & g' & H2 & H3 & H4 & H5 & _). eauto 10.
Qed.
(** The tiles of its sub-grids hold exactly the soundings added and not removed in all the sessions that lie in their squares; a square
    without a sub-grid, or without a tile, has no soundings; and every sounding lies in the square of exactly one sub-grid. *)
Theorem C112_vr_soundings e size sub b zarr g ct :
  0 < size -> 0 < sub -> vr_sessions e known_args size sub b zarr g ct ->
  (forall x y sg j u v, has_tile g x y sg -> origin_at sg j = Some (u, v) ->
     let l := filter (fun p => in_square x y size (px p) (py p) /\ in_square u v sub (px p) (py p)) (all_points ct) in
     match tile_at sg j with Some t => t_data t = Some l /\ l <> [] | None => l = [] end) /\
  (forall k x y, tile_at g k = None -> origin_at g k = Some (x, y) -> filter (fun p => in_square x y size (px p) (py p)) (all_points ct) = []) /\
  (forall p, p ∈ all_points ct -> exists k x y, origin_at g k = Some (x, y) /\ in_square x y size (px p) (py p) /\
     forall k' x' y', origin_at g k' = Some (x', y') -> in_square x' y' size (px p) (py p) -> k' = k) /\
  (forall k sg, tile_at g k = Some sg -> is_Some (origin_at g k)).
Proof.
  intros Hs Hsub H. assert (HP : forall a, known_args a -> asked None a) by (intros; by split).
  destruct (vr_sessions_inv e None known_args size sub b zarr Hs Hsub HP g ct H) as (seen & ok & HI). split; [|split; [|split]].
  - intros x y sg j u v. by eapply (vsess_location e None known_args size sub b zarr).
  - intros k x y. by eapply (vsess_none e None known_args size sub b zarr).
  - intros p. exact (root_cover (new_vr_meta 0 0 size sub b zarr) _ Hs _ _ _ _ _ HI).
  - intros k t Ht. destruct (root_origin _ _ _ _ _ _ _ _ HI Ht) as (x & y & ->). by eexists.
Qed.
(** Gridding everything: it returns normally unless an algorithm of the sessions before differs and clear_existing is not given, and
    every layer then is the statistic of the soundings held. *)
Theorem C112_vr_layers e alg r size sub b zarr g ct a dask :
  alg = "mean" \/ alg = "shoalest" -> 0 < size -> 0 < sub -> is_power_of_two (metres e r) = true -> 0 < r -> size mod sub = 0 -> sub mod r = 0 ->
  vr_sessions e known_args size sub b zarr g ct -> ct <> [] -> ga_alg a = alg -> ga_rez a = Some r ->
  ga_regrid a <> "update" \/ ga_clear a = true -> ga_clear a = true \/ m_algorithm (g_meta g) ∈ [""; alg] ->
  let g' := st_of (g_grid vr_ops e g a dask) in
  exn_of (g_grid vr_ops e g a dask) = None /\
  answers_by vr_ops e g' "depth" r (m_positive_up (g_meta g')) (all_points ct) (depth_by alg) /\
  forall up, answers_by vr_ops e g' "density" r up (all_points ct) (fun d v => v = Some (numQ (length d))) /\
    (alg = "mean" -> has_tvu (e_dt e) = true -> answers_by vr_ops e g' "vertical_uncertainty" r up (all_points ct) (fun d => mean_cell (map ptvu d))) /\
    (alg = "mean" -> has_thu (e_dt e) = true -> answers_by vr_ops e g' "horizontal_uncertainty" r up (all_points ct) (fun d => mean_cell (map pthu d))).
Proof.
  intros Halg Hs Hsub Hp Hr Hm1 Hm2 H Hne Ha Hz Hc Hd g'. destruct (simple_cases _ Halg) as [sa ->].
  assert (HP : forall a, known_args a -> asked None a) by (intros; by split).
  assert (HA : asked None a). { split; [|done]. unfold known_args. rewrite Ha. apply alg_name_elem. }
  pose proof (vsess_total e None known_args size sub b zarr Hs Hsub HP g ct sa r a dask H Hne Hp (conj Ha Hz) Hd) as Hx.
  pose proof (vsess_reflects e None known_args size sub b zarr Hs Hsub HP g ct sa r a dask H HA (conj Ha Hz) (or_intror Hc) Hx) as HR.
  pose proof (VS_grid e known_args size sub b zarr g ct a dask H (proj1 HA) Hx) as H'. fold g' in H'.
  destruct (vsess_frame e None known_args size sub b zarr Hs Hsub HP g' ct Hm1 H' Hne) as (lx & ly & nx & ny & HF & HS).
  split; [exact Hx|].
  destruct (vr_frame_answers e (alg_name sa) r size sub g' ct lx ly nx ny Halg Hs Hsub HF HS) as [D1 D2]; try done.
  { intros k Hk x y. by eapply (vsess_none e None known_args size sub b zarr). }
  split; [|exact D2]. destruct (D1 (m_positive_up (g_meta g'))) as [E1 E2]; [unfold eff_up; by destruct (m_positive_up (g_meta g'))|].
  unfold depth_by. by destruct sa; [apply E1|apply E2].
Qed.
(** Sessions that grid with one algorithm and resolution only: the update of the tiles with changed points suffices. The marks of
    such tiles are kept in the folders of the sub-grids. *)
Theorem C112_vr_update e alg r size sub b zarr g ct a dask :
  alg = "mean" \/ alg = "shoalest" -> 0 < size -> 0 < sub -> is_power_of_two (metres e r) = true -> 0 < r -> size mod sub = 0 -> sub mod r = 0 ->
  vr_sessions e (fun a => ga_alg a = alg /\ ga_rez a = Some r) size sub b zarr g ct -> ct <> [] -> ga_alg a = alg -> ga_rez a = Some r ->
  ga_clear a = true \/ m_algorithm (g_meta g) ∈ [""; alg] ->
  let g' := st_of (g_grid vr_ops e g a dask) in
  exn_of (g_grid vr_ops e g a dask) = None /\
  answers_by vr_ops e g' "depth" r (m_positive_up (g_meta g')) (all_points ct) (depth_by alg) /\
  forall up, answers_by vr_ops e g' "density" r up (all_points ct) (fun d v => v = Some (numQ (length d))) /\
    (alg = "mean" -> has_tvu (e_dt e) = true -> answers_by vr_ops e g' "vertical_uncertainty" r up (all_points ct) (fun d => mean_cell (map ptvu d))) /\
    (alg = "mean" -> has_thu (e_dt e) = true -> answers_by vr_ops e g' "horizontal_uncertainty" r up (all_points ct) (fun d => mean_cell (map pthu d))).
Proof.
  intros Halg Hs Hsub Hp Hr Hm1 Hm2 H Hne Ha Hz Hd g'. destruct (simple_cases _ Halg) as [sa ->].
  assert (HP : forall a, ga_alg a = alg_name sa /\ ga_rez a = Some r -> asked (Some (sa, r)) a).
  { intros a0 H0. split; [|exact H0]. unfold known_args. rewrite (proj1 H0). apply alg_name_elem. }
  pose proof (vsess_total e _ _ size sub b zarr Hs Hsub HP g ct sa r a dask H Hne Hp (conj Ha Hz) Hd) as Hx.
  pose proof (vsess_reflects e (Some (sa, r)) _ size sub b zarr Hs Hsub HP g ct sa r a dask H (HP a (conj Ha Hz)) (conj Ha Hz) (or_introl eq_refl) Hx) as HR.
  pose proof (VS_grid e _ size sub b zarr g ct a dask H (conj Ha Hz) Hx) as H'. fold g' in H'.
  destruct (vsess_frame e _ _ size sub b zarr Hs Hsub HP g' ct Hm1 H' Hne) as (lx & ly & nx & ny & HF & HS).
  split; [exact Hx|].
  destruct (vr_frame_answers e (alg_name sa) r size sub g' ct lx ly nx ny Halg Hs Hsub HF HS) as [D1 D2]; try done.
  { intros k Hk x y. by eapply (vsess_none e _ _ size sub b zarr Hs Hsub HP). }
  split; [|exact D2]. destruct (D1 (m_positive_up (g_meta g'))) as [E1 E2]; [unfold eff_up; by destruct (m_positive_up (g_meta g'))|].
  unfold depth_by. by destruct sa; [apply E1|apply E2].
Qed.
Print Assumptions C112_vr_saved.
Print Assumptions C112_vr_soundings.
Print Assumptions C112_vr_layers.
Print Assumptions C112_vr_update.
(** First session: two containers, gridding. Second: a third container is added, the first is removed, nothing is gridded. Third: the
    tiles with changed points are gridded. The depths are those of a grid that got the same points and was never saved. *)
Definition vmean_update := grid_args "mean" 4 false "update".
Definition vday_0 := vr_add (vr_add vr_new pts_one "one") pts_two "two".
Definition vday_1 := vr_run env_s vday_0 mean_4.
Definition vday_2 := loaded vday_1 (load_vr (fs_run [] (ev_of (save_vr_to vday_1)))).
Definition vwork_2 := st_of (g_remove_points vr_ops (vr_add vday_2 pts_three "three") "one").
Definition vday_3 := loaded vday_1 (load_vr (fs_run [] (ev_of (save_vr_to vwork_2)))).
Definition vwork_3 := vr_run env_s vday_3 vmean_update.
Definition vct_day := drop_c ([("one", pts_one); ("two", pts_two)] ++ [("three", pts_three)]) "one".
Definition vdepth_of (e : env) (g : vr_grid) : option (list cell) :=
  match g_get_layers_by_name vr_ops e g ["depth"] (Some 4) None false with Ok (_, Some [a]) => Some (nflat a) | _ => None end.
Lemma vday_3_sessions : vr_sessions env_s (fun a => ga_alg a = "mean" /\ ga_rez a = Some 4) 16 8 false false vday_3 vct_day.
Proof.
  apply (VS_load _ _ _ _ _ _ vwork_2 vct_day []); [|vm_compute; reflexivity|intros; reflexivity|vm_compute; reflexivity].
  apply (VS_remove _ _ _ _ _ _ (vr_add vday_2 pts_three "three") ([("one", pts_one); ("two", pts_two)] ++ [("three", pts_three)]) "one"); [|vm_compute; reflexivity].
  apply (VS_add _ _ _ _ _ _ vday_2 [("one", pts_one); ("two", pts_two)] pts_three (args_of "three")); [|vm_compute; reflexivity].
  apply (VS_load _ _ _ _ _ _ vday_1 [("one", pts_one); ("two", pts_two)] []); [|vm_compute; reflexivity|intros; reflexivity|vm_compute; reflexivity].
  apply (VS_grid _ _ _ _ _ _ vday_0 [("one", pts_one); ("two", pts_two)] mean_4 None); [|split; reflexivity|vm_compute; reflexivity].
  apply (VS_add _ _ _ _ _ _ (vr_add vr_new pts_one "one") [("one", pts_one)] pts_two (args_of "two")); [|vm_compute; reflexivity].
  apply (VS_add _ _ _ _ _ _ (create_vr 16 8 false false false) [] pts_one (args_of "one")); [|vm_compute; reflexivity]. apply VS_new.
Qed.
Example C112_case : vct_day = [("two", pts_two); ("three", pts_three)] /\ m_algorithm (g_meta vday_3) = "mean" /\
  exn_of (g_grid vr_ops env_s vday_3 vmean_update None) = None /\ vdepth_of env_s vday_3 <> vdepth_of env_s vwork_3 /\ vdepth_of env_s vwork_3 <> None /\
  vdepth_of env_s vwork_3 = vdepth_of env_s (vr_run env_s (st_of (g_remove_points vr_ops (vr_add vday_0 pts_three "three") "one")) mean_4).
Proof.
  split; [vm_compute; reflexivity|]. split; [vm_compute; reflexivity|]. split; [vm_compute; reflexivity|]. split; [vm_compute; discriminate|]. split; [vm_compute; discriminate|]. vm_compute. reflexivity.
Qed.
