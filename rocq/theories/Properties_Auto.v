(** Properties of gridding whole grids with automatic resolutions: C99-C102. *)
From Coq Require Import Lqa.
From Verif Require Import Py Nd Numpy Point Bin Algorithms Tile Time Meta Disk Grid GridRun GridQuery GridOps Spec TileExec GridExec AutoSpec Samples GridSamples PyFacts NdFacts
  TileGridFacts TileQueryFacts GridSrFacts GridRunFacts GridCleanFacts GridUpdateFacts GridUnknownFacts GridAutoFacts Properties_Grid Properties_GridState.
Open Scope Z_scope.

Definition auto_args (alg mode : string) : gargs := GArgs alg None true mode "full" None None.

(** ** C99: variable resolution grids *)
Theorem C99_depth e size sub b zarr disk g ct a dask alg :
  0 < size -> 0 < sub -> vr_clean e known_args size sub b zarr disk g ct -> alg = "mean" \/ alg = "shoalest" -> ga_alg a = alg -> ga_rez a = None ->
  str_lower (ga_mode a) = "depth" -> (ga_regrid a = "update" -> ga_clear a = true) -> Forall (fun p => pz p < 20480)%Q (all_points ct) ->
  exn_of (g_grid vr_ops e g a dask) = None ->
  let g' := st_of (g_grid vr_ops e g a dask) in
  vr_auto e alg size sub ct (depth_band e sub) g' /\ vr_rezs_used e alg size sub ct (depth_band e sub) g'.
Proof.
  intros Hs Hsub H Halg Ha Hr Hm Hf HF Hx g'. assert (E : exists sa, alg = alg_name sa) by (destruct Halg as [->| ->]; [by exists Mean|by exists Shoalest]).
  destruct E as [sa ->]. apply (vr_auto_result e size sub b zarr disk Hs Hsub g ct H a dask sa Ha Hr Hf Hx "depth"); try done.
  { unfold grid_auto. by rewrite Hr. }
  intros t d r Hd Hne Hin <- Hch. apply (depth_choice e t d r Hd Hne); [|done]. rewrite Forall_forall in HF |- *. auto.
Qed.
Print Assumptions C99_depth.
Theorem C99_density e size sub b zarr disk g ct a dask alg :
  0 < size -> 0 < sub -> vr_clean e known_args size sub b zarr disk g ct -> alg = "mean" \/ alg = "shoalest" -> ga_alg a = alg -> ga_rez a = None ->
  str_lower (ga_mode a) = "density" -> (ga_regrid a = "update" -> ga_clear a = true) ->
  exn_of (g_grid vr_ops e g a dask) = None ->
  let g' := st_of (g_grid vr_ops e g a dask) in
  vr_auto e alg size sub ct (fun _ => table_rez e sub) g' /\ vr_rezs_used e alg size sub ct (fun _ => table_rez e sub) g'.
Proof.
  intros Hs Hsub H Halg Ha Hr Hm Hf Hx g'. assert (E : exists sa, alg = alg_name sa) by (destruct Halg as [->| ->]; [by exists Mean|by exists Shoalest]).
  destruct E as [sa ->]. apply (vr_auto_result e size sub b zarr disk Hs Hsub g ct H a dask sa Ha Hr Hf Hx "density"); try done.
  { unfold grid_auto. by rewrite Hr. }
  intros t d r Hd Hne Hin <- Hch. by apply density_choice.
Qed.
Print Assumptions C99_density.
(** Five sub-tiles with one sounding each, at 10, 20, 30, 5 and 7 m, get three resolutions. *)
Example C99_case :
  let out := g_grid vr_ops env_s vr_2 (auto_args "mean" "Depth") None in
  exn_of out = None /\ m_rezs (g_meta (st_of out)) = [1; 2; 4] /\
  map (fun sg => m_rezs (g_meta sg)) (live_tiles (st_of out)) = [[1]; [1; 2; 4]] /\
  exn_of (g_grid vr_ops env_s vr_2 (auto_args "mean" "density") (Some 2%nat)) = Some ValueError /\
  str_lower "Depth" = "depth".
Proof. vm_compute. repeat split. Qed.
(** 80 soundings in one sub-tile and one in each of two others. *)
Definition many_pts := concat (repeat (map (fun k => Point (k mod 4) (k / 4) 12 1 1) (seqZ 0 16)) 5).
Definition vr_4 := vr_add (vr_add (create_vr 8 4 false false true) pts_one "one") many_pts "two".
Definition sr_4 := sr_add (sr_add (create_sr 8 false false true) pts_one "one") many_pts "two".
Example C99_case_density :
  let out := g_grid vr_ops env_s vr_4 (auto_args "mean" "density") (Some 2%nat) in
  exn_of out = None /\ m_rezs (g_meta (st_of out)) = [1; 4] /\ map (fun sg => m_rezs (g_meta sg)) (live_tiles (st_of out)) = [[1; 4]; [4]].
Proof. vm_compute. repeat split. Qed.

(** ** C100: single resolution grids, by depth *)
(** False: the resolution is that of the mean depth of the soundings added last. Here 10, 20, 30 m and then 5, 7 m, whose mean 14.4 m has
    resolution 2 ticks; gridded at 1. *)
Theorem C100_depth_refuted :
  exists g ct, sr_clean env_s known_args 8 false false true g ct /\
    let out := g_grid sr_ops env_s g (auto_args "mean" "depth") None in
    exn_of out = None /\ ~ exists r, depth_band env_s 8 (all_points ct) r /\ r ∈ m_rezs (g_meta (st_of out)).
Proof.
  exists sr_2, ct_2. split; [apply sr_2_clean|]. intros out. split; [vm_compute; reflexivity|].
  assert (E : m_rezs (g_meta (st_of out)) = [1]) by (vm_compute; reflexivity). rewrite E. clear E out.
  intros (r & (m & v & [_ Hm] & Hv & ->) & Hin). apply elem_of_list_singleton in Hin.
  change (sumQ (map pz (all_points ct_2))) with (10 + (20 + (30 + (5 + (7 + 0)))))%Q in Hm. change (numQ (length (map pz (all_points ct_2)))) with 5%Q in Hm.
  assert (B : band_for 14 2).
  { exists 1%nat, 20. split; [done|]. split; [done|]. intros [|j] k' v' Hj Hl; [|lia]. cbn in Hl. by injection Hl as <- <-. }
  assert (Hv' : 2 <= v) by (eapply (band_for_mono 14 m); [lra|done..]). change (e_tpq env_s) with 1 in Hin. lia.
Qed.
Print Assumptions C100_depth_refuted.
(** The depth that counts is the recorded mean_depth. All tiles get its resolution, which is then the only one of the grid.
    Missing: that mean_depth is the mean depth of the soundings, which fails (C34). *)
Theorem C100_sr_depth_partial e size b zarr disk g ct a dask alg :
  0 < size -> sr_clean e known_args size b zarr disk g ct -> alg = "mean" \/ alg = "shoalest" -> ga_alg a = alg -> ga_rez a = None ->
  str_lower (ga_mode a) = "depth" -> (ga_regrid a = "update" -> ga_clear a = true) -> (m_mean_depth (g_meta g) < 20480)%Q ->
  exn_of (g_grid sr_ops e g a dask) = None ->
  let g' := st_of (g_grid sr_ops e g a dask) in
  exists v, band_for (m_mean_depth (g_meta g)) v /\ let r := Z.min size (v * e_tpq e) in sr_reflects e alg r size b ct g' /\ m_rezs (g_meta g') = [r].
Proof.
  intros Hs H Halg Ha Hr Hm Hf HF Hx g'. assert (E : exists sa, alg = alg_name sa) by (destruct Halg as [->| ->]; [by exists Mean|by exists Shoalest]).
  destruct E as [sa ->]. destruct (sr_call e size b zarr disk g ct a dask Hs H Hx) as [rez Hrez].
  destruct (sr_call_rez e size b zarr disk Hs g ct H a "depth" rez Hr) as [H1 _]; [by unfold grid_auto; rewrite Hr|done|].
  destruct (H1 eq_refl) as (q & Hq & ->). exists (band_lookup (Some (m_mean_depth (g_meta g)))). split; [by apply band_lookup_for|]. intros r.
  unfold m_calculate_resolution_lookup in Hq. destruct (Qeq_bool _ 0); [done|]. injection Hq as <-. rewrite (proj2 (sr_root_name e size b zarr disk Hs g ct H)) in Hrez.
  by apply (sr_one_rez e size b zarr disk Hs g ct H a dask sa).
Qed.
Print Assumptions C100_sr_depth_partial.
(** As claimed for grids with one batch of soundings, up to rounding of the mean to millimetres. *)
Theorem C100_one_batch_partial e size b zarr disk d aa a dask alg :
  let g := st_of (g_add_points sr_ops (create_sr size b zarr disk) (GoodData d) aa) in
  0 < size -> exn_of (g_add_points sr_ops (create_sr size b zarr disk) (GoodData d) aa) = None -> d <> [] -> Forall (fun p => pz p < 20479)%Q d ->
  alg = "mean" \/ alg = "shoalest" -> ga_alg a = alg -> ga_rez a = None ->
  str_lower (ga_mode a) = "depth" -> (ga_regrid a = "update" -> ga_clear a = true) -> exn_of (g_grid sr_ops e g a dask) = None ->
  let g' := st_of (g_grid sr_ops e g a dask) in
  exists m q v, is_mean (map pz d) m /\ is_round3 m q /\ band_for q v /\
    let r := Z.min size (v * e_tpq e) in sr_reflects e alg r size b [(a_container aa, d)] g' /\ m_rezs (g_meta g') = [r].
Proof.
  intros g Hs Hadd Hd HF Halg Ha Hr Hm Hf Hx g'. destruct (C34_batch_mean_partial sr_ops (create_sr size b zarr disk) d aa Hadd Hd) as (m & Hmean & Hrd).
  assert (Hlt : (m < 20479)%Q) by (apply (mean_below (map pz d)); [done|by apply Forall_map]).
  assert (H : sr_clean e known_args size b zarr disk g [(a_container aa, d)]).
  { apply (CH_add sr_ops e known_args _ (create_sr size b zarr disk) [] d aa); [apply CH_new|done]. }
  assert (Hlt' : (m_mean_depth (g_meta g) < 20480)%Q).
  { destruct Hrd as (k & _ & Hrd & _). apply Qabs_Qle_condition in Hrd as [H1 H2]. fold g in H1, H2. lra. }
  destruct (C100_sr_depth_partial e size b zarr disk g _ a dask alg Hs H Halg Ha Hr Hm Hf Hlt' Hx) as (v & Hv & HH). exists m, (m_mean_depth (g_meta g)), v. done.
Qed.
Print Assumptions C100_one_batch_partial.
Example C100_case :
  exn_of (g_add_points sr_ops (create_sr 8 false false true) (GoodData pts_one) (args_of "one")) = None /\
  (let out := g_grid sr_ops env_s sr_1 (auto_args "mean" "depth") (Some 3%nat) in exn_of out = None /\ m_rezs (g_meta (st_of out)) = [4]) /\
  (let out := g_grid sr_ops env_s sr_4 (auto_args "mean" "depth") None in exn_of out = None /\ m_rezs (g_meta (st_of out)) = [2]).
Proof. vm_compute. repeat split. Qed.

(** ** C102: single resolution grids, by density *)
Theorem C102_density e size b zarr disk g ct a dask alg :
  0 < size -> sr_clean e known_args size b zarr disk g ct -> alg = "mean" \/ alg = "shoalest" -> ga_alg a = alg -> ga_rez a = None ->
  str_lower (ga_mode a) = "density" -> (ga_regrid a = "update" -> ga_clear a = true) -> exn_of (g_grid sr_ops e g a dask) = None ->
  let g' := st_of (g_grid sr_ops e g a dask) in
  exists r, sr_reflects e alg r size b ct g' /\ m_rezs (g_meta g') = [r] /\ table_rez e size r /\
    (exists k t, tile_at g k = Some t /\ t_resolution_by_density e t None None = Ok r) /\
    (forall k t, tile_at g k = Some t -> exists r', t_resolution_by_density e t None None = Ok r' /\ r' <= r).
Proof.
  intros Hs H Halg Ha Hr Hm Hf Hx g'. assert (E : exists sa, alg = alg_name sa) by (destruct Halg as [->| ->]; [by exists Mean|by exists Shoalest]).
  destruct E as [sa ->]. destruct (sr_call e size b zarr disk g ct a dask Hs H Hx) as [rez Hrez].
  destruct (sr_call_rez e size b zarr disk Hs g ct H a "density" rez Hr) as [_ H1]; [by unfold grid_auto; rewrite Hr|done|].
  destruct (H1 eq_refl) as (q & Hq & ->). exists q. destruct (sr_one_rez e size b zarr disk Hs g ct H a dask sa q Ha Hf Hx Hrez) as [R1 R2].
  destruct (sr_coarsest e size b zarr disk Hs g ct H a dask q Hx Hq) as (D1 & D2 & D3). done.
Qed.
Print Assumptions C102_density.
Example C102_case :
  let out := g_grid sr_ops env_s sr_4 (auto_args "shoalest" "density") (Some 2%nat) in
  exn_of out = None /\ m_rezs (g_meta (st_of out)) = [8] /\ map (fun t => t_resolution_by_density env_s t None None) (live_tiles sr_4) = [Ok 4; Ok 8].
Proof. vm_compute. repeat split. Qed.

(** ** C101: gridding with an automatic resolution *)
(** Soundings at 3 m depth and 3 m height: mean depth 0. Gridding by depth fails, in a single and in a variable resolution grid. *)
Definition level_pts := [Point 1 1 3 1 1; Point 2 3 (-3) 1 1].
Definition sr_level := sr_add (create_sr 8 false false true) level_pts "one".
Definition vr_level := vr_add (create_vr 16 4 false false true) level_pts "one".
Theorem C101_always_refuted :
  sr_clean env_s known_args 8 false false true sr_level [("one", level_pts)] /\ vr_clean env_s known_args 16 4 false false true vr_level [("one", level_pts)] /\
  is_power_of_two (metres env_s 8) = true /\ is_power_of_two (metres env_s 4) = true /\
  exn_of (g_grid sr_ops env_s sr_level (auto_args "mean" "depth") None) = Some ValueError /\
  exn_of (g_grid vr_ops env_s vr_level (auto_args "mean" "depth") None) = Some ValueError.
Proof.
  split; [apply (CH_add sr_ops env_s known_args _ (create_sr 8 false false true) [] level_pts (args_of "one")); [apply CH_new|vm_compute; reflexivity]|].
  split; [apply (CH_add vr_ops env_s known_args _ (create_vr 16 4 false false true) [] level_pts (args_of "one")); [apply CH_new|vm_compute; reflexivity]|].
  vm_compute. repeat split.
Qed.
Print Assumptions C101_always_refuted.
(** It returns whenever the recorded mean depth is not 0, and always by density. Tile sizes are powers of two in every grid that
    create_grid makes (C63). Missing: mean depths of 0, and algorithm 'cube' (C98). *)
Theorem C101_sr_partial e size b zarr disk g ct a dask :
  0 < size -> 0 < e_tpq e -> is_power_of_two (metres e size) = true -> sr_clean e known_args size b zarr disk g ct -> ct <> [] ->
  ga_alg a ∈ ["mean"; "shoalest"] -> ga_clear a = true \/ m_algorithm (g_meta g) = "" \/ m_algorithm (g_meta g) = ga_alg a -> ga_rez a = None ->
  (str_lower (ga_mode a) = "density" -> exn_of (g_grid sr_ops e g a dask) = None) /\
  (str_lower (ga_mode a) = "depth" -> exn_of (g_grid sr_ops e g a dask) = None <-> ~ (m_mean_depth (g_meta g) == 0)%Q).
Proof.
  intros Hs He Hp H Hne HA HM Hr. assert (HM' : mismatch g a = false) by (by apply matches_args). destruct (simple_name _ HA) as [sa Ha]. split; intros Hm.
  - apply (sr_auto_returns e size b zarr disk g ct a dask sa); try done. by right.
  - split; [|intros Hz; apply (sr_auto_returns e size b zarr disk g ct a dask sa); try done; by left]. intros Hx Hz. exact (sr_zero_raises e size b zarr disk g ct a dask Hs H Hr Hm Hz Hx).
Qed.
Print Assumptions C101_sr_partial.
(** For variable resolution grids, that of every tile counts, and that of the grid as well if it is one of the zarr version. *)
Theorem C101_vr_partial e size sub b zarr disk g ct a dask :
  0 < size -> 0 < sub -> 0 < e_tpq e -> is_power_of_two (metres e sub) = true -> vr_clean e known_args size sub b zarr disk g ct -> ct <> [] ->
  ga_alg a ∈ ["mean"; "shoalest"] -> ga_clear a = true \/ m_algorithm (g_meta g) = "" \/ m_algorithm (g_meta g) = ga_alg a -> ga_rez a = None ->
  (str_lower (ga_mode a) = "density" -> exn_of (g_grid vr_ops e g a dask) = None) /\
  (str_lower (ga_mode a) = "depth" ->
     ((zarr = true -> ~ (m_mean_depth (g_meta g) == 0)%Q) /\ (forall k sg, tile_at g k = Some sg -> ~ (m_mean_depth (g_meta sg) == 0)%Q) ->
       exn_of (g_grid vr_ops e g a dask) = None) /\
     ((ga_regrid a = "update" -> ga_clear a = true) -> exn_of (g_grid vr_ops e g a dask) = None ->
       forall k sg, tile_at g k = Some sg -> ~ (m_mean_depth (g_meta sg) == 0)%Q)).
Proof.
  intros Hs Hsub He Hp H Hne HA HM Hr. assert (HM' : mismatch g a = false) by (by apply matches_args). destruct (simple_name _ HA) as [sa Ha]. split; intros Hm.
  - apply (vr_auto_returns e size sub b zarr disk g ct a dask sa); try done. by right.
  - split.
    + intros [Hz1 Hz2]. apply (vr_auto_returns e size sub b zarr disk g ct a dask sa); try done. by left.
    + intros Hf Hx k sg Ht Hz. exact (vr_zero_raises e size sub b zarr disk g ct a dask k sg Hs Hsub H Hr Hm Hf Ht Hz Hx).
Qed.
Print Assumptions C101_vr_partial.
Example C101_case :
  is_power_of_two (metres env_s 8) = true /\ negb (Qeq_bool (m_mean_depth (g_meta sr_4)) 0) = true /\
  exn_of (g_grid sr_ops env_s sr_4 (auto_args "mean" "depth") None) = None /\
  Qeq_bool (m_mean_depth (g_meta sr_level)) 0 = true /\ exn_of (g_grid sr_ops env_s sr_level (auto_args "mean" "density") None) = None /\
  forallb (fun sg => negb (Qeq_bool (m_mean_depth (g_meta sg)) 0)) (live_tiles vr_4) = true /\
  exn_of (g_grid vr_ops env_s vr_4 (auto_args "mean" "depth") None) = None.
Proof. vm_compute. repeat split. Qed.
