(** Properties of the bands of exported rasters: C123; more about attributions (C53), tile boundaries (C82) and the forms of
    locations (C83). *)
From Coq Require Import Lqa.
From Verif Require Import Py Nd Numpy Point Bin Algorithms Tile Time Meta Disk Grid GridRun GridQuery GridOps Export Spec TileExec GridExec Views ViewsSpec Samples GridSamples.
From Verif Require Import PyFacts NumpyFacts MetaFacts GridSrFacts GridVrFacts GridHistFacts ViewsFacts RasterNameFacts Properties_Grid.
Open Scope Z_scope.

(** ** C123 *)
(** The bands of a geotiff of soundings are the layers depth, vertical_uncertainty and total_uncertainty of the grid in
    their order, each under its title. *)
Theorem C123_geotiff {T} (O : tile_ops T) e (g : grid T) up rez mx g' fs f :
  export_geotiff O e g up rez mx = Ok (g', fs) -> m_backscatter (g_meta g) = false -> f ∈ fs ->
  let held := depth_layers (g_layer_names O g) in
  Forall2 (tif_title up) held (rf_names f) /\ length (rf_bands f) = length held.
Proof.
  intros H Hb Hf held. destruct (tif_names O e g up rez mx g' fs H) as (ln & fn & Hl & Hfs). destruct (Hfs f Hf) as [-> ->].
  by destruct (raster_layers_titles O g up ln fn Hb Hl) as [-> ?].
Qed.
Theorem C123_geotiff_backscatter {T} (O : tile_ops T) e (g : grid T) up rez mx g' fs f :
  export_geotiff O e g up rez mx = Ok (g', fs) -> m_backscatter (g_meta g) = true -> f ∈ fs ->
  rf_names f = ["Intensity"] /\ length (rf_bands f) = 1%nat.
Proof.
  intros H Hb Hf. destruct (tif_names O e g up rez mx g' fs H) as (ln & fn & Hl & Hfs). destruct (Hfs f Hf) as [-> ->].
  by destruct (raster_layers_backscatter O g up ln fn Hb Hl) as [-> ->].
Qed.
(** A BAG holds elevations and uncertainties, and the times of the grid when both are known. *)
Theorem C123_bag {T} (O : tile_ops T) e (g : grid T) rez mx vert g' fs f :
  export_bag O e g rez mx vert = Ok (g', fs) -> f ∈ fs ->
  let held := depth_layers (g_layer_names O g) in
  Forall2 bag_title held (rf_names (bf_raster f)) /\ length (rf_bands (bf_raster f)) = length held /\ "depth" ∈ held.
Proof.
  intros H Hf held. destruct (bag_names O e g rez mx vert g' fs H) as (ln & fn & Hl & Hfs). destruct (Hfs f Hf) as [-> ->].
  destruct (bag_layers_titles O g ln fn Hl) as [E ?]. fold held in E. rewrite E in *. split; [done|]. split; [done|].
  unfold bag_layers in Hl. rewrite depth_layers_eq in Hl. fold held in Hl. case_bool_decide as Hd; [|done].
  apply elem_of_list_fmap in Hd as (l & El & Hl'). unfold bag_band_name in El. case_bool_decide; [by subst|done].
Qed.
Theorem C123_bag_times {T} (O : tile_ops T) e (g : grid T) rez mx vert g' fs f :
  export_bag O e g rez mx vert = Ok (g', fs) -> f ∈ fs ->
  let first := m_min_time (g_meta g) in let last := m_max_time (g_meta g) in
  (first <> "" /\ last <> "" -> bf_times f = Some (first, last)) /\ (first = "" \/ last = "" -> bf_times f = None).
Proof.
  intros H Hf first last. destruct (bag_range _ _ _ _ _ _ _ _ H f Hf) as (_ & -> & _). unfold bag_times. fold first last.
  case_bool_decide; case_bool_decide; cbn; naive_solver.
Qed.
(** Elevations are refused exactly when the grid has no depth layer. *)
Theorem C123_no_depth {T} (O : tile_ops T) e (g : grid T) rez mx : m_backscatter (g_meta g) = false -> "depth" ∉ g_layer_names O g ->
  export_geotiff O e g true rez mx = Raise ValueError.
Proof.
  intros Hb Hn. unfold export_geotiff. cbv zeta. by rewrite (proj2 (raster_layers_refused O g true ValueError) (conj eq_refl (conj Hb (conj eq_refl Hn)))).
Qed.
Print Assumptions C123_geotiff.
Print Assumptions C123_geotiff_backscatter.
Print Assumptions C123_bag.
Print Assumptions C123_bag_times.
Print Assumptions C123_no_depth.
Example C123_case : match export_geotiff sr_ops env_s run_1 true None None with
  | Ok (_, [f]) => rf_names f = ["Elevation"; "Vertical Uncertainty"] /\ length (rf_bands f) = 2%nat | _ => False end /\
  match export_geotiff sr_ops env_s run_1 false None None with Ok (_, [f]) => rf_names f = ["Depth"; "Vertical Uncertainty"] | _ => False end /\
  match export_bag sr_ops env_s run_1 None None "" with Ok (_, [f]) => rf_names (bf_raster f) = ["Elevation"; "Uncertainty"] /\ bf_times f = None | _ => False end /\
  depth_layers (g_layer_names sr_ops run_1) = ["depth"; "vertical_uncertainty"].
Proof. vm_compute. repeat split. Qed.

(** ** C53 *)
(** return_attribution never raises; it lists exactly the recorded containers, and shows for each the record of a container of
    that name or of that name with '_0' appended. *)
Theorem C53_listed {T} (O : tile_ops T) e g0 g held done failed :
  m_container (g_meta g0) = [] -> m_timestamp (g_meta g0) = [] -> add_calls O e g0 g held done failed ->
  exists d, m_return_attribution (g_meta g) = Ok d /\ dkeys d = dkeys (m_container (g_meta g)) /\
    forall c v, dget d c = Some v -> exists k, (k = c \/ k = c +:+ "_0") /\ dget (m_timestamp (g_meta g)) k = Some v.1 /\ dget (m_container (g_meta g)) k = Some v.2.
Proof.
  intros H0 H0' H. destruct (calls_held O e g0 g held done failed H0 H0' H) as (H1 & H2 & _). by apply attribution_all.
Qed.
Print Assumptions C53_listed.

(** ** C82 *)
(** The line starts at the lower and ends at the upper corner of the extents, with 5 points for each edge of a row and one
    closing it. *)
Theorem C82_ends_sr e size b zarr disk g ct seen ok : 0 < size -> sr_history e size b zarr disk g ct seen ok -> ct <> [] ->
  exists pts x nx ny, m_ext (g_meta g) = Some x /\ g_tile_boundaries g = Ok pts /\ head pts = Some (x0 x, y0 x) /\ last pts = Some (x1 x, y1 x) /\
    x1 x = x0 x + Z.of_nat nx * size /\ y1 x = y0 x + Z.of_nat ny * size /\ length pts = ((5 * S nx + 1) * S ny)%nat.
Proof.
  intros Hs H Hne. apply (sr_inv e size b zarr disk Hs) in H. destruct (frame_edges _ _ _ _ _ _ H Hne) as (lx & ly & nx & ny & H1 & H2 & H3 & H4 & H5 & H6).
  cbn [m_tile_size new_sr_meta new_meta] in H3, H4, H5, H6. destruct (boundaries_spec g size lx ly nx ny H1 H2 Hs H3 H4 H5) as (pts & B1 & _).
  destruct (boundaries_ends g size lx ly nx ny pts H3 H4 H5 B1) as (E1 & E2 & E3). by eexists pts, _, nx, ny.
Qed.
Theorem C82_ends_vr e size sub b zarr disk g ct seen ok : 0 < size -> 0 < sub -> vr_history e size sub b zarr disk g ct seen ok -> ct <> [] ->
  exists pts x nx ny, m_ext (g_meta g) = Some x /\ g_tile_boundaries g = Ok pts /\ head pts = Some (x0 x, y0 x) /\ last pts = Some (x1 x, y1 x) /\
    x1 x = x0 x + Z.of_nat nx * size /\ y1 x = y0 x + Z.of_nat ny * size /\ length pts = ((5 * S nx + 1) * S ny)%nat.
Proof.
  intros Hs Hsub H Hne. apply (vr_inv e size sub b zarr disk Hs Hsub) in H. destruct (frame_edges _ _ _ _ _ _ H Hne) as (lx & ly & nx & ny & H1 & H2 & H3 & H4 & H5 & H6).
  cbn [m_tile_size new_vr_meta new_meta] in H3, H4, H5, H6. destruct (boundaries_spec g size lx ly nx ny H1 H2 Hs H3 H4 H5) as (pts & B1 & _).
  destruct (boundaries_ends g size lx ly nx ny pts H3 H4 H5 B1) as (E1 & E2 & E3). by eexists pts, _, nx, ny.
Qed.
Print Assumptions C82_ends_sr.
Print Assumptions C82_ends_vr.

(** ** C12 *)
(** return_extents gives two corners, x first, between which all soundings added so far lie; the first one is the lower. *)
Theorem C12_returned_sr e size b zarr disk g ct seen ok : 0 < size -> sr_history e size b zarr disk g ct seen ok -> ct <> [] ->
  exists lo hi, g_return_extents g = Some (lo, hi) /\ (size | lo.1) /\ (size | lo.2) /\ (size | hi.1) /\ (size | hi.2) /\
    forall p, p ∈ all_points ct -> lo.1 <= px p < hi.1 /\ lo.2 <= py p < hi.2.
Proof.
  intros Hs H Hne. destruct (C12_sr_extents e size b zarr disk g ct seen ok Hs H Hne) as [(x & y & x' & y' & E & D1 & D2 & D3 & D4 & HF & _) Hin].
  exists (x, y), (x', y'). unfold g_return_extents. rewrite E. split; [done|]. do 4 (split; [done|]). intros p Hp. rewrite Forall_forall in HF. by apply HF, Hin.
Qed.
Theorem C12_returned_vr e size sub b zarr disk g ct seen ok : 0 < size -> 0 < sub -> vr_history e size sub b zarr disk g ct seen ok -> ct <> [] ->
  exists lo hi, g_return_extents g = Some (lo, hi) /\ (size | lo.1) /\ (size | lo.2) /\ (size | hi.1) /\ (size | hi.2) /\
    forall p, p ∈ all_points ct -> lo.1 <= px p < hi.1 /\ lo.2 <= py p < hi.2.
Proof.
  intros Hs Hsub H Hne. destruct (C12_vr_extents e size sub b zarr disk g ct seen ok Hs Hsub H Hne) as [(x & y & x' & y' & E & D1 & D2 & D3 & D4 & HF & _) Hin].
  exists (x, y), (x', y'). unfold g_return_extents. rewrite E. split; [done|]. do 4 (split; [done|]). intros p Hp. rewrite Forall_forall in HF. by apply HF, Hin.
Qed.
Example C12_returned_case : g_return_extents sr_2 = Some ((-8, -8), (24, 16)).
Proof. vm_compute. reflexivity. Qed.
Print Assumptions C12_returned_sr.
Print Assumptions C12_returned_vr.

(** ** C83 *)
(** A tuple of y coordinates never gives values at a resolution, whatever the x coordinates. *)
Theorem C83_tuple {T} (O : tile_ops T) e (g : grid T) xs ys layer r nodata x : xs <> [] -> x ∈ [LTuple xs; LList xs; LArr xs] ->
  exists ex, g_layer_values_at O e g x (LTuple ys) layer (Some r) nodata = Raise ex.
Proof.
  intros Hne Hx. assert (E : loc_x x = LArr xs) by (apply elem_of_list_In in Hx; cbn in Hx; by destruct Hx as [<-|[<-|[<-|[]]]]).
  unfold g_layer_values_at, validate_locs. rewrite E. cbn [loc_y rbind]. destruct xs as [|v xs]; [done|]. cbn.
  destruct (g_surf_boundaries O e g [layer] (Some r) nodata); cbn; eauto.
Qed.
Print Assumptions C83_tuple.
