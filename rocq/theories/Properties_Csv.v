(** Csv files compared with rasters: C68. *)
From Coq Require Import Lqa.
From Verif Require Import Py Nd Numpy Point Bin Algorithms Tile Time Meta Disk Grid GridRun GridQuery GridOps Export
  Spec TileExec GridExec WholeSpec Samples GridSamples PyFacts GridUpdateFacts GridReadFacts GridCsvFacts.
Open Scope Z_scope.

(** ** C68 *)
(** When every tile has a value in each layer at the resolution: the values agree (NaN in the csv file is
    1000000 in the raster), unless elevations are asked for and the mean depth is not positive. *)
Theorem C68_agree_partial e size zarr disk g ct r ls up mx v w :
  0 < size -> sr_clean e known_args size false zarr disk g ct -> ct <> [] -> 0 < r -> size mod r = 0 ->
  g_return_layer_names sr_ops g = Ok ls -> NoDup ls -> Forall (fun l => l ∈ std_layers) ls ->
  (forall k t l, tile_at g k = Some t -> l ∈ ls -> exists a q, layer_of t r l = Some a /\ Some q ∈ nflat a) ->
  up = false \/ (0 < m_mean_depth (g_meta g))%Q -> exported_both sr_ops e g up r mx v w -> exported_as false (Some 1000000%Q) v w.
Proof.
  intros Hs H Hne Hr Hm Hls Hnd Hstd HL Hup (g1 & fs & g2 & rs & f & qx & qy & cs & i & rf & q & j & band & k & c & H1 & H2 & H3 & H4 & H5 & H6 & H7 & H8 & H9 & H10 & H11 & H12).
  pose proof (csv_rasters e size zarr disk g ct r ls up mx g1 fs g2 rs Hs H Hne Hr Hm Hls Hnd Hstd HL H1 H2 f qx qy cs i v H3 H4 H5 H6 rf q j band k c w H7 H8 H9 H10 H11 H12) as HE.
  destruct Hup as [->|Hup]; [done|]. replace (Qle_bool (m_mean_depth (g_meta g)) 0) with false in HE; [by rewrite andb_false_r in HE|].
  symmetry. apply not_true_iff_false. rewrite Qle_bool_iff. lra.
Qed.
(** In the other case the csv file has the wrong sign. *)
Theorem C68_opposite e size zarr disk g ct r ls mx v w :
  0 < size -> sr_clean e known_args size false zarr disk g ct -> ct <> [] -> 0 < r -> size mod r = 0 ->
  g_return_layer_names sr_ops g = Ok ls -> NoDup ls -> Forall (fun l => l ∈ std_layers) ls ->
  (forall k t l, tile_at g k = Some t -> l ∈ ls -> exists a q, layer_of t r l = Some a /\ Some q ∈ nflat a) ->
  (m_mean_depth (g_meta g) <= 0)%Q -> exported_both sr_ops e g true r mx v w -> exported_as true (Some 1000000%Q) v w.
Proof.
  intros Hs H Hne Hr Hm Hls Hnd Hstd HL Hup (g1 & fs & g2 & rs & f & qx & qy & cs & i & rf & q & j & band & k & c & H1 & H2 & H3 & H4 & H5 & H6 & H7 & H8 & H9 & H10 & H11 & H12).
  pose proof (csv_rasters e size zarr disk g ct r ls true mx g1 fs g2 rs Hs H Hne Hr Hm Hls Hnd Hstd HL H1 H2 f qx qy cs i v H3 H4 H5 H6 rf q j band k c w H7 H8 H9 H10 H11 H12) as HE.
  apply Qle_bool_iff in Hup. by rewrite Hup in HE.
Qed.

(** A sounding at elevation -10, with a vertical reference that is positive up: 10 in the column "elevation"
    of the csv file, -10 in the band "Elevation" of the raster. *)
Definition up_vref := AddArgs "one" [] None (Some "AXIS[""ellipsoidal height (h)"",up]") None None "now".
Definition up_ct : content := [("one", [Point 1 1 (-10) 1 1])].
Definition up_grid := sr_run env_s (st_of (g_add_points sr_ops (create_sr 8 false false true) (GoodData [Point 1 1 (-10) 1 1]) up_vref)) mean_4.
Definition up_csv := match export_csv sr_ops env_s up_grid true (Some 4) with Ok x => x | _ => (up_grid, []) end.
Definition up_tif := match export_geotiff sr_ops env_s up_grid true (Some 4) None with Ok x => x | _ => (up_grid, []) end.
Example up_grid_clean : sr_clean env_s known_args 8 false false true up_grid up_ct.
Proof.
  apply (CH_grid _ _ _ _ (st_of (g_add_points sr_ops (create_sr 8 false false true) (GoodData [Point 1 1 (-10) 1 1]) up_vref)) up_ct mean_4 None);
    [|apply elem_of_list_here|by vm_compute].
  apply (CH_add _ _ _ _ (create_sr 8 false false true) [] [Point 1 1 (-10) 1 1] up_vref); [apply CH_new|by vm_compute].
Qed.
Theorem C68_sign_refuted : exists e size g ct r v w,
  sr_clean e known_args size false false true g ct /\ 0 < r /\ size mod r = 0 /\ exported_both sr_ops e g true r None v w /\ ~ exported_as false (Some 1000000%Q) v w.
Proof.
  exists env_s, 8, up_grid, up_ct, 4, (Some 10%Q), (Some (-10)%Q). split; [apply up_grid_clean|]. split; [done|]. split; [done|]. split.
  - exists up_csv.1, up_csv.2, up_tif.1, up_tif.2, (default (CsvFile 0 [] []) (head up_csv.2)), (4 # 2)%Q, (4 # 2)%Q, [Some 10%Q; Some 1%Q; Some 1%Q; Some 1%Q], 0%nat.
    exists (default (RasterFile 0 0 None [] []) (head up_tif.2)), (0, 4, 8), 0%nat, (default (Nd 0 0 []) (head (rf_bands (default (RasterFile 0 0 None [] []) (head up_tif.2))))), 1%nat, 0%nat.
    split; [vm_compute; reflexivity|]. split; [vm_compute; reflexivity|]. split; [vm_compute; left|]. split; [vm_compute; left|].
    split; [vm_compute; reflexivity|]. split; [done|]. split; [vm_compute; left|]. split; [vm_compute; reflexivity|]. split; [vm_compute; reflexivity|]. split; [vm_compute; reflexivity|].
    split; [vm_compute; by split|]. vm_compute. reflexivity.
  - intros (q & [= <-] & E). vm_compute in E. discriminate.
Qed.
Print Assumptions C68_agree_partial.
Print Assumptions C68_opposite.
Print Assumptions C68_sign_refuted.

(** [run_1] meets the hypotheses of [C68_agree_partial], [up_grid] those of [C68_opposite]. *)
Definition mean_layers := ["depth"; "density"; "vertical_uncertainty"; "horizontal_uncertainty"].
Example C68_case : sr_clean env_s known_args 8 false false true run_1 ct_2 /\ g_return_layer_names sr_ops run_1 = Ok mean_layers /\
  NoDup mean_layers /\ Forall (fun l => l ∈ std_layers) mean_layers /\ (0 < m_mean_depth (g_meta run_1))%Q /\
  (forall k t l, tile_at run_1 k = Some t -> l ∈ mean_layers -> exists a q, layer_of t 4 l = Some a /\ Some q ∈ nflat a).
Proof.
  split; [apply (CH_grid _ _ _ _ sr_2 ct_2 mean_4 None); [apply sr_2_clean|apply elem_of_list_here|by vm_compute]|].
  split; [vm_compute; reflexivity|]. split; [apply (bool_decide_unpack _); vm_compute; exact I|].
  split; [apply Forall_forall; intros l Hl; apply elem_of_list_In in Hl; cbn in Hl; destruct Hl as [<-|[<-|[<-|[<-|[]]]]]; apply (bool_decide_unpack _); vm_compute; exact I|].
  split; [vm_compute; reflexivity|]. apply filled_spec. vm_compute. reflexivity.
Qed.
Example C68_case_opposite : g_return_layer_names sr_ops up_grid = Ok mean_layers /\ (m_mean_depth (g_meta up_grid) <= 0)%Q /\
  (forall k t l, tile_at up_grid k = Some t -> l ∈ mean_layers -> exists a q, layer_of t 4 l = Some a /\ Some q ∈ nflat a).
Proof.
  split; [vm_compute; reflexivity|]. split; [intros H; vm_compute in H; discriminate|]. apply filled_spec. vm_compute. reflexivity.
Qed.
