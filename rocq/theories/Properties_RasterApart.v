(** Property C128: exported rasters do not overlap. *)
From Coq Require Import Lqa.
From Verif Require Import Py Nd Numpy Point Bin Algorithms Tile Time Meta Disk Grid GridRun GridQuery GridOps Export Views
  Spec TileExec GridExec WholeSpec SameSpec LayerNameSpec CsvSpec CsvPointSpec RasterPointSpec Samples GridSamples PyFacts TileFacts TileHistFacts GridBaseFacts GridPlaceFacts GridInvFacts GridPropFacts GridRunFacts GridCountFacts GridExportFacts GridRootFacts GridSrFacts GridVrFacts GridHistFacts GridCleanFacts GridUpdateFacts GridFlagFacts GridReadFacts GridAnswerFacts GridMultiFacts GridMultiVrFacts GridCsvFacts GridWholeFacts GridContainerFacts GridSameFacts
  CsvLineFacts CsvPointFacts ViewsFacts RasterNameFacts RasterPointFacts RasterApartFacts Properties_Grid Properties_Whole Properties_Same Properties_CsvPoints Properties_LayerNames Properties_RasterPoints.
Open Scope Z_scope.

(** ** C128 *)
(** The chunks of a grid with any history, for any layers of numbers that can be queried, any values of nodata and any chunk size. *)
Theorem C128_sr_chunks e size b zarr disk g ct seen ok r ls nodata up mx g' out :
  0 < size -> sr_history e size b zarr disk g ct seen ok -> ct <> [] -> 0 < r -> size mod r = 0 ->
  Forall (fun l => l ∈ float_layers) ls -> ls <> [] ->
  (forall k t, tile_at g k = Some t -> r ∈ dkeys (t_cells t)) ->
  (forall l, l ∈ ls -> exists o, g_get_layers_by_name sr_ops e g [l] (Some r) nodata up = Ok (g, o)) ->
  g_get_chunks_of_tiles sr_ops e g r ls nodata up mx true = Ok (g', out) ->
  one_pixel (map (fun item => (item.1, map (nd_transpose None) (map snd item.2))) out).
Proof. exact (sr_apart e size b zarr disk g ct seen ok r ls nodata up mx g' out). Qed.
Theorem C128_vr_chunks e size sub b zarr disk g ct seen ok r ls nodata up mx g' out :
  0 < size -> 0 < sub -> vr_history e size sub b zarr disk g ct seen ok -> ct <> [] -> 0 < r -> size mod r = 0 ->
  Forall (fun l => l ∈ float_layers) ls -> ls <> [] ->
  (forall l, l ∈ ls -> exists o, g_get_layers_by_name vr_ops e g [l] (Some r) nodata up = Ok (g, o)) ->
  g_get_chunks_of_tiles vr_ops e g r ls nodata up mx true = Ok (g', out) ->
  one_pixel (map (fun item => (item.1, map (nd_transpose None) (map snd item.2))) out).
Proof. exact (vr_apart e size sub b zarr disk g ct seen ok r ls nodata up mx g' out). Qed.

(** What is needed of a gridded grid. *)
Lemma gridded_apart e alg r ct T (O : tile_ops T) g up ls ls' mx g' out : alg = "mean" \/ alg = "shoalest" -> 0 < r -> ct <> [] -> gridded e alg r ct T O g ->
  g_return_layer_names O g = Ok ls -> ls <> [] -> Forall (kept_layer e alg) ls' -> Forall (fun l => l ∈ float_layers) ls' -> ls' <> [] ->
  g_get_chunks_of_tiles O e g r ls' no_sounding up mx true = Ok (g', out) -> one_pixel (map item_bands out).
Proof.
  intros Halg Hr Hne G Hls Hl0 Hk Hfl Hne' Hout. destruct (gridded_rasters e alg r ct T O g up ls Halg Hr Hne G Hls Hl0) as (_ & _ & Hsim & _).
  pose proof (gridded_settled e alg r ct T O g Halg Hr Hne G) as HS.
  assert (Hqs : forall l, l ∈ ls' -> exists o, g_get_layers_by_name O e g [l] (Some r) no_sounding up = Ok (g, o)).
  { intros l Hl. rewrite Forall_forall in Hk, Hfl. destruct (up_layer O e alg r (all_points ct) g up HS Hsim l (Hk l Hl) (Hfl l Hl)) as (x & a & _ & Ha & _). eauto. }
  clear Hsim HS Hls. assert (Hk0 : kept_layer e alg "depth") by (by left).
  destruct G as [size zarr disk g0 a dask g1 Hs Hm H Ha Hu Hx Hq|size sub zarr disk g0 a dask g1 Hs Hsub Hm1 Hm2 H Ha Hu Hx Hq].
  - assert (HC : sr_clean e known_args size false zarr disk g1 ct /\ sr_reflects e alg r size false ct g1).
    { destruct (simple_cases _ Halg) as [sa ->]. destruct (sr_after e sa r a dask ct Ha Hu size false zarr disk g0 g1 Hs H Hx Hq) as [HC HN]. split; [done|].
      by apply (sr_reflects_current e known_args (fun _ h => h) sa r size false zarr disk Hs g1 ct HC). }
    destruct HC as [HC HR]. destruct (clean_history_of _ _ _ _ _ _ HC) as (seen & ok & Hh). apply (sr_apart e size false zarr disk g1 ct seen ok r ls' no_sounding up mx g' out); try done.
    intros k t Ht. destruct (sr_filled e alg r size zarr disk g1 ct k t "depth" Halg Hs HC Hne Hr Hm HR Ht Hk0) as (a0 & _ & Ha0 & _). unfold layer_of in Ha0. apply dget_is_Some. by destruct (dget (t_cells t) r).
  - assert (HC : vr_clean e known_args size sub false zarr disk g1 ct).
    { destruct (simple_cases _ Halg) as [sa ->]. by destruct (vr_after e sa r a dask ct Ha Hu size sub false zarr disk g0 g1 Hs Hsub H Hx Hq) as [HC HN]. }
    destruct (clean_history_of _ _ _ _ _ _ HC) as (seen & ok & Hh). apply (vr_apart e size sub false zarr disk g1 ct seen ok r ls' no_sounding up mx g' out); try done. by apply (mod_trans _ sub).
Qed.
Lemma depth_floats ls : Forall (fun l => l ∈ float_layers) (depth_layers ls).
Proof. apply Forall_forall. intros l [[->|[->| ->]] _]%elem_of_list_filter; apply (bool_decide_unpack _); vm_compute; exact I. Qed.
(** The files of a grid of either kind, with any history, that was gridded with 'mean' or 'shoalest': no place is in two pixels. *)
Theorem C128_geotiff e alg r ct T (O : tile_ops T) g ls up mx g' fs :
  alg = "mean" \/ alg = "shoalest" -> 0 < r -> ct <> [] -> gridded e alg r ct T O g ->
  g_return_layer_names O g = Ok ls -> "depth" ∈ ls -> Forall (kept_layer e alg) (depth_layers ls) ->
  export_geotiff O e g up (Some r) mx = Ok (g', fs) -> one_pixel (map placed_bands fs).
Proof.
  intros Halg Hr Hne G Hls Hin Hk (ln & fn & out & El & Hout & ->)%geotiff_chunks. assert (Hl0 : ls <> []) by (by intros ->; apply not_elem_of_nil in Hin).
  destruct (gridded_rasters e alg r ct T O g up ls Halg Hr Hne G Hls Hl0) as (Hnm & Hb & _). destruct (raster_layers_titles O g up ln fn Hb El) as [E _]. rewrite Hnm in E. subst ln.
  apply (gridded_apart e alg r ct T O g up ls (depth_layers ls) mx g' out); try done; [apply depth_floats|]. intros E. assert (Hd : "depth" ∈ depth_layers ls) by (apply elem_of_list_filter; tauto). rewrite E in Hd. by apply not_elem_of_nil in Hd.
Qed.
Theorem C128_bag e alg r ct T (O : tile_ops T) g ls mx vert g' fs :
  alg = "mean" \/ alg = "shoalest" -> 0 < r -> ct <> [] -> gridded e alg r ct T O g ->
  g_return_layer_names O g = Ok ls -> "depth" ∈ ls -> Forall (kept_layer e alg) (depth_layers ls) ->
  export_bag O e g (Some r) mx vert = Ok (g', fs) -> one_pixel (map placed_bands (map bf_raster fs)).
Proof.
  intros Halg Hr Hne G Hls Hin Hk (ln & fn & out & El & Hout & ->)%bag_chunks. assert (Hl0 : ls <> []) by (by intros ->; apply not_elem_of_nil in Hin).
  destruct (gridded_rasters e alg r ct T O g true ls Halg Hr Hne G Hls Hl0) as (Hnm & Hb & _). destruct (bag_layers_titles O g ln fn El) as [E _]. rewrite Hnm in E. subst ln.
  apply (gridded_apart e alg r ct T O g true ls (depth_layers ls) mx g' out); try done; [apply depth_floats|]. intros E. assert (Hd : "depth" ∈ depth_layers ls) by (apply elem_of_list_filter; tauto). rewrite E in Hd. by apply not_elem_of_nil in Hd.
Qed.
(** Three files with two bands each, of pixels of 4 by 4; in one file they would cover two by three tiles. *)
Example C128_case :
  match export_geotiff sr_ops env_s run_1 false (Some 4) (Some 8), export_geotiff sr_ops env_s run_1 false (Some 4) None with
  | Ok (_, fs), Ok (_, [f]) => map rf_geo fs = [Some (-8, 4, 0); Some (0, 4, 8); Some (8, 4, 8)] /\
      map (fun f => map (fun b => (nrows b, ncols b)) (rf_bands f)) fs = [[(2, 2); (2, 2)]; [(2, 2); (2, 2)]; [(2, 2); (2, 2)]]%nat /\
      rf_geo f = Some (-8, 4, 8) /\ map (fun b => (nrows b, ncols b)) (rf_bands f) = [(4, 6); (4, 6)]%nat
  | _, _ => False end.
Proof. vm_compute. repeat split. Qed.
Print Assumptions C128_sr_chunks.
Print Assumptions C128_vr_chunks.
Print Assumptions C128_geotiff.
Print Assumptions C128_bag.
