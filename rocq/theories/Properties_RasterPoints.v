(** Property C127: what exported rasters say of the soundings. *)
From Coq Require Import Lqa.
From Verif Require Import Py Nd Numpy Point Bin Algorithms Tile Time Meta Disk Grid GridRun GridQuery GridOps Export Views
  Spec TileExec GridExec WholeSpec SameSpec LayerNameSpec CsvSpec CsvPointSpec RasterPointSpec Samples GridSamples PyFacts TileFacts TileHistFacts GridBaseFacts GridPlaceFacts GridInvFacts GridPropFacts GridRunFacts GridCountFacts GridExportFacts GridRootFacts GridSrFacts GridVrFacts GridHistFacts GridCleanFacts GridUpdateFacts GridFlagFacts GridReadFacts GridAnswerFacts GridMultiFacts GridMultiVrFacts GridCsvFacts GridWholeFacts GridContainerFacts GridSameFacts
  CsvLineFacts CsvPointFacts ViewsFacts RasterNameFacts RasterPointFacts Properties_Grid Properties_Whole Properties_Same Properties_CsvPoints Properties_LayerNames.
Open Scope Z_scope.

(** What is needed of a gridded grid to export rasters of its layers. *)
Lemma gridded_rasters e alg r ct T (O : tile_ops T) g up ls : alg = "mean" \/ alg = "shoalest" -> 0 < r -> ct <> [] -> gridded e alg r ct T O g ->
  g_return_layer_names O g = Ok ls -> ls <> [] ->
  g_layer_names O g = ls /\ m_backscatter (g_meta g) = false /\
  (forall l a, kept_layer e alg l -> l ∈ float_layers -> g_get_layers_by_name O e g [l] (Some r) None (m_positive_up (g_meta g)) = Ok (g, Some [a]) ->
    exists o', g_get_layers_by_name O e g [l] (Some r) no_sounding up = Ok (g, o') /\ same_answers (exported_as (bool_decide (l = "depth") && xorb (m_positive_up (g_meta g)) up) no_sounding) (Some [a]) o') /\
  (forall ls mx, Forall (kept_layer e alg) ls -> Forall (fun l => l ∈ float_layers) ls -> ls <> [] ->
    (forall l, l ∈ ls -> exists o, g_get_layers_by_name O e g [l] (Some r) no_sounding up = Ok (g, o)) ->
    exists out, g_get_chunks_of_tiles O e g r ls no_sounding up mx true = Ok (g, out) /\ rasters_show O e g r ls no_sounding up out).
Proof.
  intros Halg Hr Hne G Hls Hl0. assert (Hk0 : exists l0, kept_layer e alg l0) by (exists "depth"; by left). destruct Hk0 as [l0 Hk0].
  destruct G as [size zarr disk g0 a dask g' Hs Hm H Ha Hu Hx Hq|size sub zarr disk g0 a dask g' Hs Hsub Hm1 Hm2 H Ha Hu Hx Hq].
  - assert (HC : sr_clean e known_args size false zarr disk g' ct /\ sr_reflects e alg r size false ct g').
    { destruct (simple_cases _ Halg) as [sa ->]. destruct (sr_after e sa r a dask ct Ha Hu size false zarr disk g0 g' Hs H Hx Hq) as [HC HN]. split; [done|].
      by apply (sr_reflects_current e known_args (fun _ h => h) sa r size false zarr disk Hs g' ct HC). }
    destruct HC as [HC HR]. pose proof (fun k t l => sr_filled e alg r size zarr disk g' ct k t l Halg Hs HC Hne Hr Hm HR) as HL.
    assert (Hrez : forall k t, tile_at g' k = Some t -> r ∈ dkeys (t_cells t)).
    { intros k t Ht. destruct (HL k t l0 Ht Hk0) as (a0 & _ & Ha0 & _). unfold layer_of in Ha0. apply dget_is_Some. by destruct (dget (t_cells t) r). }
    destruct (first_names g' ls r Hls Hl0 Hrez) as [Hnm _]. split; [done|]. destruct (clean_history_of _ _ _ _ _ _ HC) as (seen & ok & Hh). split; [|split].
    + pose proof (sr_inv e size false zarr disk Hs _ _ _ _ Hh) as [HB _]. by rewrite (mf_back _ _ (rb_meta _ _ _ HB)).
    + intros l arr Hl Hf Hqa. destruct (sr_sim e known_args size false zarr disk g' ct l r None no_sounding (m_positive_up (g_meta g')) up
        (exported_as (bool_decide (l = "depth") && xorb (m_positive_up (g_meta g')) up) no_sounding) g' (Some [arr]) Hs (fun _ h => h) HC) as (_ & o' & Hq' & Hsame); [by eapply kept_std| | |exact Hqa|by exists o'].
      * rewrite !float_nodata by done. done.
      * intros v. replace (eff_up (g_meta g') up) with (xorb (eff_up (g_meta g') (m_positive_up (g_meta g'))) (xorb (m_positive_up (g_meta g')) up)) by (unfold eff_up; by destruct (m_positive_up (g_meta g')), up).
        by apply view_no_sounding.
    + intros ls' mx _ Hfl Hne' Hqs. by apply (sr_rasters e size false zarr disk g' ct seen ok r ls' no_sounding up mx).
  - assert (HC : vr_clean e known_args size sub false zarr disk g' ct /\ vr_reflects e alg r size sub ct g').
    { destruct (simple_cases _ Halg) as [sa ->]. destruct (vr_after e sa r a dask ct Ha Hu size sub false zarr disk g0 g' Hs Hsub H Hx Hq) as [HC HN]. split; [done|].
      apply (vr_reflects_current e known_args (fun _ h => h) sa r size sub false zarr disk Hs Hsub g' ct HC). intros k sg j t Hkg Hj. exact (HN k sg Hkg j t Hj). }
    destruct HC as [HC HR]. pose proof (fun k sg j t l => vr_filled e alg r size sub zarr disk g' ct k sg j t l Halg Hs Hsub HC Hne Hr Hm1 Hm2 HR) as HL.
    destruct (vr_first_names e known_args size sub false zarr disk g' ct ls r Hs Hsub (fun _ h => h) HC Hls Hl0) as (Hnm & _).
    { intros k sg j t Hkg Ht. destruct (HL k sg j t l0 Hkg Ht Hk0) as (a0 & _ & Ha0 & _). unfold layer_of in Ha0. apply dget_is_Some. by destruct (dget (t_cells t) r). }
    split; [done|]. destruct (clean_history_of _ _ _ _ _ _ HC) as (seen & ok & Hh). split; [|split].
    + pose proof (vr_inv e size sub false zarr disk Hs Hsub _ _ _ _ Hh) as [HB _]. by rewrite (mf_back _ _ (rb_meta _ _ _ HB)).
    + intros l arr Hl Hf Hqa. destruct (vr_sim e known_args size sub false zarr disk g' ct l r None no_sounding (m_positive_up (g_meta g')) up
        (exported_as (bool_decide (l = "depth") && xorb (m_positive_up (g_meta g')) up) no_sounding) g' (Some [arr]) Hs Hsub (fun _ h => h) HC) as (_ & o' & Hq' & Hsame); [by eapply kept_std| | |exact Hqa|by exists o'].
      * rewrite !float_nodata by done. done.
      * intros m v. replace (eff_up m (eff_up (g_meta g') up)) with (xorb (eff_up m (eff_up (g_meta g') (m_positive_up (g_meta g')))) (xorb (m_positive_up (g_meta g')) up))
          by (unfold eff_up; by destruct (m_positive_up (g_meta g')), up, (m_positive_up m)). by apply view_no_sounding.
    + intros ls' mx _ Hfl Hne' Hqs. apply (vr_rasters e size sub false zarr disk g' ct seen ok r ls' no_sounding up mx); try done. by apply (mod_trans _ sub).
Qed.
Lemma held_kinds e alg ls : Forall (kept_layer e alg) (depth_layers ls) -> Forall (fun l => l = "depth" \/ l = "vertical_uncertainty") (depth_layers ls).
Proof.
  rewrite !Forall_forall. intros H l Hl. pose proof (H l Hl) as Hk. apply elem_of_list_filter in Hl as [[->|[->| ->]] _]; [tauto..|].
  destruct Hk as [?|[?|[[? _]|[? _]]]]; done.
Qed.

(** ** C127 *)
(** A grid of either kind, with any history, that was gridded with 'mean' or 'shoalest' and whose depths and vertical uncertainties are all that
    its rasters show: the geotiff can be written, with depths or elevations, and every pixel says what the soundings in its square say. *)
Theorem C127_geotiff e alg r ct T (O : tile_ops T) g ls up mx :
  alg = "mean" \/ alg = "shoalest" -> 0 < r -> ct <> [] -> gridded e alg r ct T O g -> Forall plausible (all_points ct) ->
  g_return_layer_names O g = Ok ls -> NoDup ls -> "depth" ∈ ls -> Forall (kept_layer e alg) (depth_layers ls) ->
  exists fs, export_geotiff O e g up (Some r) mx = Ok (g, fs) /\
    rasters_of_points alg r (xorb (m_positive_up (g_meta g)) up) (all_points ct) (depth_layers ls) fs /\
    Forall (fun f => Forall2 (tif_title up) (depth_layers ls) (rf_names f)) fs.
Proof.
  intros Halg Hr Hne G Hpl Hls Hnd Hin Hk. assert (Hl0 : ls <> []) by (by intros ->; apply not_elem_of_nil in Hin).
  destruct (gridded_rasters e alg r ct T O g up ls Halg Hr Hne G Hls Hl0) as (Hnm & Hb & Hsim & Hras).
  assert (Hd : "depth" ∈ depth_layers ls) by (apply elem_of_list_filter; tauto).
  destruct (raster_layers O g up) as [[ln fn]|x] eqn:El.
  2:{ unfold raster_layers in El. rewrite Hb, Hnm, depth_layers_eq in El. cbn [negb andb] in El. destruct up; [|done]. case_bool_decide as Hbd; [done|]. destruct Hbd. apply elem_of_list_fmap. by exists "depth". }
  destruct (raster_layers_titles O g up ln fn Hb El) as [E _]. rewrite Hnm in E. subst ln.
  destruct (geotiff_points O e alg r (all_points ct) g up (gridded_settled e alg r ct T O g Halg Hr Hne G) Hpl Hsim Hras (depth_layers ls) fn mx El Hk (held_kinds _ _ _ Hk)) as (fs & Hfs & HP).
  { by apply NoDup_filter. }
  { intros E. rewrite E in Hd. by apply not_elem_of_nil in Hd. }
  exists fs. split; [done|]. split; [done|]. apply Forall_forall. intros f Hf. destruct (tif_names O e g up (Some r) mx g fs Hfs) as (ln & fn' & Hl & HF). rewrite El in Hl. injection Hl as <- <-.
  destruct (HF f Hf) as [-> _]. by destruct (raster_layers_titles O g up (depth_layers ls) fn Hb El).
Qed.
(** The same for a BAG, whose depths are elevations. *)
Theorem C127_bag e alg r ct T (O : tile_ops T) g ls mx vert :
  alg = "mean" \/ alg = "shoalest" -> 0 < r -> ct <> [] -> gridded e alg r ct T O g -> Forall plausible (all_points ct) ->
  g_return_layer_names O g = Ok ls -> NoDup ls -> "depth" ∈ ls -> Forall (kept_layer e alg) (depth_layers ls) ->
  exists fs, export_bag O e g (Some r) mx vert = Ok (g, fs) /\
    rasters_of_points alg r (negb (m_positive_up (g_meta g))) (all_points ct) (depth_layers ls) (map bf_raster fs) /\
    Forall (fun f => Forall2 bag_title (depth_layers ls) (rf_names (bf_raster f))) fs.
Proof.
  intros Halg Hr Hne G Hpl Hls Hnd Hin Hk. assert (Hl0 : ls <> []) by (by intros ->; apply not_elem_of_nil in Hin).
  destruct (gridded_rasters e alg r ct T O g true ls Halg Hr Hne G Hls Hl0) as (Hnm & Hb & Hsim & Hras).
  assert (Hd : "depth" ∈ depth_layers ls) by (apply elem_of_list_filter; tauto).
  destruct (bag_layers O g) as [[ln fn]|x] eqn:El.
  2:{ unfold bag_layers in El. rewrite Hnm, depth_layers_eq in El. case_bool_decide as Hbd; [done|]. destruct Hbd. apply elem_of_list_fmap. by exists "depth". }
  destruct (bag_layers_titles O g ln fn El) as [E _]. rewrite Hnm in E. subst ln.
  destruct (bag_points O e alg r (all_points ct) g true (gridded_settled e alg r ct T O g Halg Hr Hne G) Hpl Hsim Hras (depth_layers ls) fn mx vert eq_refl El Hk (held_kinds _ _ _ Hk)) as (fs & Hfs & HP).
  { by apply NoDup_filter. }
  { intros E. rewrite E in Hd. by apply not_elem_of_nil in Hd. }
  exists fs. split; [done|]. split; [by rewrite <- xorb_true_r|]. apply Forall_forall. intros f Hf. destruct (bag_names O e g (Some r) mx vert g fs Hfs) as (ln & fn' & Hl & HF). rewrite El in Hl. injection Hl as <- <-.
  destruct (HF f Hf) as [-> _]. by destruct (bag_layers_titles O g (depth_layers ls) fn El).
Qed.
(** Right after gridding anew with 'mean' (or 'shoalest' without uncertainties) nothing needs to be known of the layers. *)
Theorem C127_sr_fresh e alg r size zarr disk g ct a dask up mx :
  alg = "mean" \/ (alg = "shoalest" /\ has_tvu (e_dt e) = false /\ has_thu (e_dt e) = false) -> 0 < r -> ct <> [] -> Forall plausible (all_points ct) ->
  0 < size -> size mod r = 0 -> sr_clean e known_args size false zarr disk g ct -> only_args alg r a -> ga_clear a = true -> exn_of (g_grid sr_ops e g a dask) = None ->
  let g' := st_of (g_grid sr_ops e g a dask) in
  exists fs, export_geotiff sr_ops e g' up (Some r) mx = Ok (g', fs) /\
    rasters_of_points alg r (xorb (m_positive_up (g_meta g')) up) (all_points ct) ("depth" :: if has_tvu (e_dt e) then ["vertical_uncertainty"] else []) fs.
Proof.
  intros Halg Hr Hne Hpl Hs Hm H Ha Hc Hx g'. assert (Halg' : alg = "mean" \/ alg = "shoalest") by tauto. destruct Ha as [Ea Er].
  assert (HA : known_args a) by (unfold known_args; rewrite Ea; destruct Halg' as [->| ->]; apply (bool_decide_unpack _); vm_compute; exact I).
  pose proof (C125_sr e size false zarr disk g ct a dask Hs H HA Hc Hx) as Hls. rewrite Ea in Hls. fold g' in Hls.
  destruct (given_kept e alg disk Halg) as (_ & N2 & N3). set (ls := given_layers false disk alg (has_tvu (e_dt e)) (has_thu (e_dt e))) in *.
  assert (G : gridded e alg r ct tile sr_ops g') by (refine (Gridded_sr e alg r ct size zarr disk g a dask g' Hs Hm H (conj Ea Er) (fun _ => Hc) Hx _); apply Q_none).
  assert (E : depth_layers ls = "depth" :: if has_tvu (e_dt e) then ["vertical_uncertainty"] else []).
  { unfold ls, given_layers. destruct Halg' as [->| ->]; cbn [String.eqb Ascii.eqb Bool.eqb]; destruct (has_tvu (e_dt e)), (has_thu (e_dt e)); vm_compute; reflexivity. }
  destruct (C127_geotiff e alg r ct tile sr_ops g' ls up mx Halg' Hr Hne G Hpl Hls N2) as (fs & Hfs & HP & _).
  { left. }
  { rewrite Forall_forall in *. intros l [_ Hl]%elem_of_list_filter. by apply N3. }
  exists fs. rewrite <- E. by split.
Qed.
Theorem C127_vr_fresh e alg r size sub zarr disk g ct a dask up mx :
  alg = "mean" \/ (alg = "shoalest" /\ has_tvu (e_dt e) = false /\ has_thu (e_dt e) = false) -> 0 < r -> ct <> [] -> Forall plausible (all_points ct) ->
  0 < size -> 0 < sub -> size mod sub = 0 -> sub mod r = 0 -> vr_clean e known_args size sub false zarr disk g ct -> only_args alg r a -> ga_clear a = true -> exn_of (g_grid vr_ops e g a dask) = None ->
  let g' := st_of (g_grid vr_ops e g a dask) in
  exists fs, export_geotiff vr_ops e g' up (Some r) mx = Ok (g', fs) /\
    rasters_of_points alg r (xorb (m_positive_up (g_meta g')) up) (all_points ct) ("depth" :: if has_tvu (e_dt e) then ["vertical_uncertainty"] else []) fs.
Proof.
  intros Halg Hr Hne Hpl Hs Hsub Hm1 Hm2 H Ha Hc Hx g'. assert (Halg' : alg = "mean" \/ alg = "shoalest") by tauto. destruct Ha as [Ea Er].
  assert (HA : known_args a) by (unfold known_args; rewrite Ea; destruct Halg' as [->| ->]; apply (bool_decide_unpack _); vm_compute; exact I).
  destruct (C125_vr e size sub false zarr disk g ct a dask Hs Hsub H HA Hc Hx) as (stored & Hls). rewrite Ea in Hls. fold g' in Hls.
  destruct (given_kept e alg stored Halg) as (_ & N2 & N3). set (ls := given_layers false stored alg (has_tvu (e_dt e)) (has_thu (e_dt e))) in *.
  assert (G : gridded e alg r ct sr_grid vr_ops g') by (refine (Gridded_vr e alg r ct size sub zarr disk g a dask g' Hs Hsub Hm1 Hm2 H (conj Ea Er) (fun _ => Hc) Hx _); apply Q_none).
  assert (E : depth_layers ls = "depth" :: if has_tvu (e_dt e) then ["vertical_uncertainty"] else []).
  { unfold ls, given_layers. destruct Halg' as [->| ->]; cbn [String.eqb Ascii.eqb Bool.eqb]; destruct (has_tvu (e_dt e)), (has_thu (e_dt e)); vm_compute; reflexivity. }
  destruct (C127_geotiff e alg r ct sr_grid vr_ops g' ls up mx Halg' Hr Hne G Hpl Hls N2) as (fs & Hfs & HP & _).
  { left. }
  { rewrite Forall_forall in *. intros l [_ Hl]%elem_of_list_filter. by apply N3. }
  exists fs. rewrite <- E. by split.
Qed.
(** Five soundings in three tiles, as elevations in three files; the first pixel with a value of both bands of the first. *)
Example C127_case :
  gridded env_s "mean" 4 ct_2 tile sr_ops (st_of (g_grid sr_ops env_s sr_2 mean_4 None)) /\ Forall plausible (all_points ct_2) /\
  g_return_layer_names sr_ops run_1 = Ok ["depth"; "density"; "vertical_uncertainty"; "horizontal_uncertainty"] /\
  depth_layers ["depth"; "density"; "vertical_uncertainty"; "horizontal_uncertainty"] = ["depth"; "vertical_uncertainty"] /\
  match export_geotiff sr_ops env_s run_1 true (Some 4) (Some 8) with
  | Ok (_, f :: fs) => length fs = 2%nat /\ rf_names f = ["Elevation"; "Vertical Uncertainty"] /\ rf_geo f = Some (-8, 4, 0) /\
      map (fun b => nd_get b 1 1) (rf_bands f) = [Some (Some (-5)%Q); Some (Some 1%Q)]
  | _ => False end.
Proof.
  split; [apply (Gridded_sr _ _ _ _ 8 false true sr_2 mean_4 None); [lia|reflexivity|apply sr_2_clean|split; reflexivity|intros E; discriminate E|vm_compute; reflexivity|apply Q_none]|].
  split; [vm_compute all_points; repeat (constructor; [split; split; vm_compute; intros; discriminate|]); constructor|]. split; [vm_compute; reflexivity|]. split; [vm_compute; reflexivity|].
  vm_compute. repeat split.
Qed.
Print Assumptions C127_geotiff.
Print Assumptions C127_bag.
Print Assumptions C127_sr_fresh.
Print Assumptions C127_vr_fresh.
