(** Properties of the layer queries that follow gridding: C36, C38, C44 and C68 for variable resolution grids, C45 for grids, C88, C89. *)
From Coq Require Import Lqa.
From Verif Require Import Py Nd Numpy Point Bin Algorithms Tile Time Meta Disk Grid GridRun GridQuery GridOps Export
  Spec TileExec GridExec WholeSpec Samples GridSamples TileGridFacts TileRunFacts GridUpdateFacts GridFlagFacts GridAnswerFacts GridWholeFacts GridContainerFacts GridReadFacts GridMultiFacts GridMultiVrFacts GridValueFacts.
Open Scope Z_scope.

(** A variable resolution grid with tiles of side 16 and sub-tiles of side 8. *)
Definition wide_1 := vr_add (create_vr 16 8 false false true) pts_one "one".
Definition wide_2 := vr_add wide_1 pts_two "two".
Definition wide_run := vr_run env_s wide_2 mean_4.
Example wide_2_clean P : vr_clean env_s P 16 8 false false true wide_2 ct_2.
Proof. apply (CH_add _ _ _ _ wide_1 [("one", pts_one)] pts_two (args_of "two")); [|by vm_compute].
  apply (CH_add _ _ _ _ (create_vr 16 8 false false true) [] pts_one (args_of "one")); [apply CH_new|by vm_compute]. Qed.

(** ** C36, variable resolution *)
(** When every sub-tile that has the resolution has a value in each of the layers asked for, asking for them
    together gives the list of the answers to each of them. *)
Theorem C36_vr_partial e size sub b zarr disk g ct r ls nodata up :
  0 < size -> 0 < sub -> vr_clean e known_args size sub b zarr disk g ct -> ct <> [] -> 0 < r -> size mod sub = 0 -> sub mod r = 0 ->
  g_no_grid vr_ops g = Ok false -> (forall k sg, tile_at g k = Some sg -> g_no_grid sr_ops sg = Ok false) ->
  ls <> [] -> NoDup ls -> Forall (fun l => l ∈ float_layers ++ int_layers) ls ->
  (forall k sg j t d l, tile_at g k = Some sg -> tile_at sg j = Some t -> dget (t_cells t) r = Some d -> l ∈ ls -> exists a q, dget d l = Some a /\ Some q ∈ nflat a) ->
  exists o, g_get_layers_by_name vr_ops e g ls (Some r) nodata up = Ok (g, o) /\
  match o with
  | Some arrs => Forall2 (fun l a => g_get_layers_by_name vr_ops e g [l] (Some r) nodata up = Ok (g, Some [a])) ls arrs
  | None => Forall (fun l => g_get_layers_by_name vr_ops e g [l] (Some r) nodata up = Ok (g, None)) ls
  end.
Proof. intros Hs Hsub H. by apply (vr_multi e known_args size sub b zarr disk g ct r ls nodata up Hs Hsub (fun _ h => h) H). Qed.
(** Full statement: as [C36_sr_partial], for every list of layers; refuted by [C36_mixed_refuted]. *)
Print Assumptions C36_vr_partial.
(** What is found at a place of the array of tiles is in it. *)
Definition tiles_all {T} (f : T -> bool) (g : grid T) : bool :=
  forallb (fun o : option T => match o with Some t => f t | None => true end) (match g_tiles g with Some a => nflat a | None => [] end).
Lemma tiles_all_spec {T} (f : T -> bool) (g : grid T) k t : tiles_all f g = true -> tile_at g k = Some t -> f t = true.
Proof.
  unfold tiles_all, tile_at. destruct (g_tiles g) as [a|]; [|done]. intros H Ht. rewrite forallb_forall in H.
  destruct (nflat a !! k) as [o|] eqn:E; [|done]. cbn in Ht. subst o. apply (H (Some t)). apply elem_of_list_In, elem_of_list_lookup. by exists k.
Qed.
Definition tile_has (r : Z) (ls : list string) (t : tile) : bool :=
  match dget (t_cells t) r with
  | Some d => forallb (fun l => match dget d l with Some a => existsb (fun c : cell => match c with Some _ => true | None => false end) (nflat a) | None => false end) ls
  | None => true end.
Lemma tile_has_spec r ls t d l : tile_has r ls t = true -> dget (t_cells t) r = Some d -> l ∈ ls -> exists a q, dget d l = Some a /\ Some q ∈ nflat a.
Proof.
  unfold tile_has. intros H Hd Hl. rewrite Hd, forallb_forall in H. specialize (H l (proj1 (elem_of_list_In _ _) Hl)). destruct (dget d l) as [b|]; [|done].
  apply existsb_exists in H as ([q|] & Hq & Hc); [|done]. exists b, q. split; [done|]. by apply elem_of_list_In.
Qed.
Example C36_vr_case : vr_clean env_s known_args 16 8 false false true wide_run ct_2 /\ g_no_grid vr_ops wide_run = Ok false /\ 16 mod 8 = 0 /\ 8 mod 4 = 0 /\
  (forall k sg, tile_at wide_run k = Some sg -> g_no_grid sr_ops sg = Ok false) /\ NoDup ["density"; "depth"] /\
  (forall k sg j t d l, tile_at wide_run k = Some sg -> tile_at sg j = Some t -> dget (t_cells t) 4 = Some d -> l ∈ ["density"; "depth"] ->
    exists a q, dget d l = Some a /\ Some q ∈ nflat a) /\
  match g_get_layers_by_name vr_ops env_s wide_run ["density"; "depth"] (Some 4) None false with
  | Ok (_, Some [a; b]) => nd_get a 2 3 = Some (Some 1%Q) /\ nd_get b 2 3 = Some (Some 5%Q) /\ nd_get b 4 7 = Some (Some 20%Q)
  | _ => False
  end.
Proof.
  split; [apply (CH_grid _ _ _ _ wide_2 ct_2 mean_4 None); [apply wide_2_clean|apply elem_of_list_here|by vm_compute]|].
  split; [by vm_compute|]. split; [done|]. split; [done|]. split.
  { intros k sg Hk. pose proof (tiles_all_spec (fun sg => match g_no_grid sr_ops sg with Ok false => true | _ => false end) wide_run k sg ltac:(by vm_compute) Hk) as H.
    cbv beta in H. destruct (g_no_grid sr_ops sg) as [[]|]; [discriminate H|reflexivity|discriminate H]. }
  split; [apply (bool_decide_unpack _); vm_compute; exact I|]. split; [|vm_compute; by repeat split].
  intros k sg j t d l Hk Hj. apply tile_has_spec. apply (tiles_all_spec _ sg j); [|exact Hj]. exact (tiles_all_spec (tiles_all (tile_has 4 ["density"; "depth"])) wide_run k sg ltac:(by vm_compute) Hk).
Qed.

(** ** C68, variable resolution *)
(** When every sub-tile has a value in each layer at the resolution: the values agree, unless elevations are
    asked for and the mean depth is not positive; then the csv file has the opposite sign. *)
Theorem C68_vr_agree_partial e size sub zarr disk g ct r ls up mx v w :
  0 < size -> 0 < sub -> vr_clean e known_args size sub false zarr disk g ct -> ct <> [] -> 0 < r -> size mod sub = 0 -> sub mod r = 0 ->
  g_return_layer_names vr_ops g = Ok ls -> NoDup ls -> Forall (fun l => l ∈ std_layers) ls ->
  (forall k sg j t l, tile_at g k = Some sg -> tile_at sg j = Some t -> l ∈ ls -> exists a q, layer_of t r l = Some a /\ Some q ∈ nflat a) ->
  up = false \/ (0 < m_mean_depth (g_meta g))%Q -> exported_both vr_ops e g up r mx v w -> exported_as false (Some 1000000%Q) v w.
Proof.
  intros Hs Hsub H Hne Hr Hm1 Hm2 Hls Hnd Hstd HL Hup (g1 & fs & g2 & rs & f & qx & qy & cs & i & rf & q & j & band & k & c & H1 & H2 & H3 & H4 & H5 & H6 & H7 & H8 & H9 & H10 & H11 & H12).
  pose proof (vr_csv_rasters e size sub zarr disk g ct r ls up mx g1 fs g2 rs Hs Hsub H Hne Hr Hm1 Hm2 Hls Hnd Hstd HL H1 H2 f qx qy cs i v H3 H4 H5 H6 rf q j band k c w H7 H8 H9 H10 H11 H12) as HE.
  destruct Hup as [->|Hup]; [done|]. replace (Qle_bool (m_mean_depth (g_meta g)) 0) with false in HE; [by rewrite andb_false_r in HE|].
  symmetry. apply not_true_iff_false. rewrite Qle_bool_iff. lra.
Qed.
Theorem C68_vr_opposite e size sub zarr disk g ct r ls mx v w :
  0 < size -> 0 < sub -> vr_clean e known_args size sub false zarr disk g ct -> ct <> [] -> 0 < r -> size mod sub = 0 -> sub mod r = 0 ->
  g_return_layer_names vr_ops g = Ok ls -> NoDup ls -> Forall (fun l => l ∈ std_layers) ls ->
  (forall k sg j t l, tile_at g k = Some sg -> tile_at sg j = Some t -> l ∈ ls -> exists a q, layer_of t r l = Some a /\ Some q ∈ nflat a) ->
  (m_mean_depth (g_meta g) <= 0)%Q -> exported_both vr_ops e g true r mx v w -> exported_as true (Some 1000000%Q) v w.
Proof.
  intros Hs Hsub H Hne Hr Hm1 Hm2 Hls Hnd Hstd HL Hup (g1 & fs & g2 & rs & f & qx & qy & cs & i & rf & q & j & band & k & c & H1 & H2 & H3 & H4 & H5 & H6 & H7 & H8 & H9 & H10 & H11 & H12).
  pose proof (vr_csv_rasters e size sub zarr disk g ct r ls true mx g1 fs g2 rs Hs Hsub H Hne Hr Hm1 Hm2 Hls Hnd Hstd HL H1 H2 f qx qy cs i v H3 H4 H5 H6 rf q j band k c w H7 H8 H9 H10 H11 H12) as HE.
  apply Qle_bool_iff in Hup. by rewrite Hup in HE.
Qed.
Print Assumptions C68_vr_agree_partial.
Print Assumptions C68_vr_opposite.
Definition wide_layers := ["depth"; "density"; "vertical_uncertainty"; "horizontal_uncertainty"].
Definition has_value (r : Z) (ls : list string) (t : tile) : bool :=
  forallb (fun l => match layer_of t r l with Some a => existsb (fun c : cell => match c with Some _ => true | None => false end) (nflat a) | None => false end) ls.
Lemma has_value_spec r ls t l : has_value r ls t = true -> l ∈ ls -> exists a q, layer_of t r l = Some a /\ Some q ∈ nflat a.
Proof.
  unfold has_value. intros H Hl. rewrite forallb_forall in H. specialize (H l (proj1 (elem_of_list_In _ _) Hl)). destruct (layer_of t r l) as [a|]; [|done].
  apply existsb_exists in H as ([q|] & Hq & Hc); [|done]. exists a, q. split; [done|]. by apply elem_of_list_In.
Qed.
(** The depth 5 of [wide_run] in both files. *)
Definition wide_csv := match export_csv vr_ops env_s wide_run false (Some 4) with Ok x => x | _ => (wide_run, []) end.
Definition wide_tif := match export_geotiff vr_ops env_s wide_run false (Some 4) None with Ok x => x | _ => (wide_run, []) end.
Example C68_vr_case : vr_clean env_s known_args 16 8 false false true wide_run ct_2 /\ g_return_layer_names vr_ops wide_run = Ok wide_layers /\
  NoDup wide_layers /\ Forall (fun l => l ∈ std_layers) wide_layers /\ (0 < m_mean_depth (g_meta wide_run))%Q /\
  (forall k sg j t l, tile_at wide_run k = Some sg -> tile_at sg j = Some t -> l ∈ wide_layers -> exists a q, layer_of t 4 l = Some a /\ Some q ∈ nflat a) /\
  exported_both vr_ops env_s wide_run false 4 None (Some 5%Q) (Some 5%Q).
Proof.
  split; [apply (CH_grid _ _ _ _ wide_2 ct_2 mean_4 None); [apply wide_2_clean|apply elem_of_list_here|by vm_compute]|].
  split; [vm_compute; reflexivity|]. split; [apply (bool_decide_unpack _); vm_compute; exact I|].
  split; [apply Forall_forall; intros l Hl; apply elem_of_list_In in Hl; cbn in Hl; destruct Hl as [<-|[<-|[<-|[<-|[]]]]]; apply (bool_decide_unpack _); vm_compute; exact I|].
  split; [vm_compute; reflexivity|]. split.
  { intros k sg j t l Hk Hj. apply has_value_spec. apply (tiles_all_spec _ sg j); [|exact Hj].
    exact (tiles_all_spec (tiles_all (has_value 4 wide_layers)) wide_run k sg ltac:(by vm_compute) Hk). }
  exists wide_csv.1, wide_csv.2, wide_tif.1, wide_tif.2, (default (CsvFile 0 [] []) (head wide_csv.2)), (-4 # 2)%Q, (-12 # 2)%Q, [Some 5%Q; Some 1%Q; Some 1%Q; Some 1%Q], 0%nat.
  exists (default (RasterFile 0 0 None [] []) (head wide_tif.2)), (-16, 4, 16), 0%nat, (default (Nd 0 0 []) (head (rf_bands (default (RasterFile 0 0 None [] []) (head wide_tif.2))))), 5%nat, 3%nat.
  split; [vm_compute; reflexivity|]. split; [vm_compute; reflexivity|]. split; [vm_compute; left|]. split; [vm_compute; left|].
  split; [vm_compute; reflexivity|]. split; [done|]. split; [vm_compute; left|]. split; [vm_compute; reflexivity|]. split; [vm_compute; reflexivity|]. split; [vm_compute; reflexivity|].
  split; [vm_compute; by split|]. vm_compute. reflexivity.
Qed.

(** ** C88 *)
(** Variable resolution grids: after gridding, and whatever has been asked since. *)
Theorem C88_vr e alg r size sub b zarr disk g ct a dask g2 :
  alg = "mean" \/ alg = "shoalest" -> 0 < size -> 0 < sub -> vr_clean e known_args size sub b zarr disk g ct -> ct <> [] ->
  only_args alg r a -> (ga_regrid a = "update" -> ga_clear a = true) -> exn_of (g_grid vr_ops e g a dask) = None ->
  0 < r -> size mod sub = 0 -> sub mod r = 0 ->
  queried vr_ops e (st_of (g_grid vr_ops e g a dask)) g2 ->
  answers_by vr_ops e g2 "depth" r (m_positive_up (g_meta g2)) (all_points ct) (depth_by alg) /\
  forall up, answers_by vr_ops e g2 "density" r up (all_points ct) (fun d v => v = Some (numQ (length d))) /\
    (alg = "mean" -> has_tvu (e_dt e) = true -> answers_by vr_ops e g2 "vertical_uncertainty" r up (all_points ct) (fun d => mean_cell (map ptvu d))) /\
    (alg = "mean" -> has_thu (e_dt e) = true -> answers_by vr_ops e g2 "horizontal_uncertainty" r up (all_points ct) (fun d => mean_cell (map pthu d))).
Proof.
  intros Halg Hs Hsub H Hne Ha Hu Hx Hr Hm1 Hm2 Hq. destruct (simple_cases _ Halg) as [sa ->].
  destruct (vr_after e sa r a dask ct Ha Hu size sub b zarr disk g g2 Hs Hsub H Hx Hq) as [HC HN].
  destruct (vr_reflects_answers e (alg_name sa) r size sub b zarr disk g2 ct Halg Hs Hsub HC Hne) as [D1 D2]; [|done..|].
  - apply (vr_reflects_current e known_args (fun _ h => h) sa r size sub b zarr disk Hs Hsub g2 ct HC). intros k sg j t Hk. by apply (HN k sg).
  - split; [|done]. destruct (D1 (m_positive_up (g_meta g2))) as [E1 E2]; [unfold eff_up; by destruct (m_positive_up (g_meta g2))|].
    unfold depth_by. by destruct sa; [apply E1|apply E2].
Qed.
(** Single resolution grids: C35 holds after any queries too. *)
Theorem C88_sr e alg r size b zarr disk g ct a dask g2 :
  alg = "mean" \/ alg = "shoalest" -> 0 < size -> sr_clean e known_args size b zarr disk g ct -> ct <> [] ->
  only_args alg r a -> (ga_regrid a = "update" -> ga_clear a = true) -> exn_of (g_grid sr_ops e g a dask) = None ->
  0 < r -> size mod r = 0 ->
  queried sr_ops e (st_of (g_grid sr_ops e g a dask)) g2 ->
  answers_by sr_ops e g2 (if b then "intensity" else "depth") r (m_positive_up (g_meta g2)) (all_points ct) (depth_by alg) /\
  forall up, answers_by sr_ops e g2 "density" r up (all_points ct) (fun d v => v = Some (numQ (length d))) /\
    (alg = "mean" -> has_tvu (e_dt e) = true -> answers_by sr_ops e g2 "vertical_uncertainty" r up (all_points ct) (fun d => mean_cell (map ptvu d))) /\
    (alg = "mean" -> has_thu (e_dt e) = true -> answers_by sr_ops e g2 "horizontal_uncertainty" r up (all_points ct) (fun d => mean_cell (map pthu d))).
Proof.
  intros Halg Hs H Hne Ha Hu Hx Hr Hm Hq. destruct (simple_cases _ Halg) as [sa ->].
  destruct (sr_after e sa r a dask ct Ha Hu size b zarr disk g g2 Hs H Hx Hq) as [HC HN].
  destruct (sr_reflects_answers e (alg_name sa) r size b zarr disk g2 ct Halg Hs HC Hne) as [D1 D2]; [|done..|].
  - by apply (sr_reflects_current e known_args (fun _ h => h) sa r size b zarr disk Hs g2 ct HC).
  - split; [|exact D2]. destruct (D1 (m_positive_up (g_meta g2))) as [E1 E2]; [left; unfold eff_up; by destruct (m_positive_up (g_meta g2))|].
    unfold depth_by. by destruct sa; [apply E1|apply E2].
Qed.
Print Assumptions C88_vr.
Print Assumptions C88_sr.
(** Five soundings in two tiles, three sub-tiles; asked after a query for a container. *)
Example C88_case : only_args "mean" 4 mean_4 /\ vr_clean env_s known_args 16 8 false false true wide_2 ct_2 /\
  exn_of (g_grid vr_ops env_s wide_2 mean_4 None) = None /\ 16 mod 8 = 0 /\ 8 mod 4 = 0 /\
  match g_get_layers_by_name vr_ops env_s wide_run ["one"] (Some 4) None false with
  | Ok (g2, _) =>
      match g_get_layers_by_name vr_ops env_s g2 ["depth"] (Some 4) None false with
      | Ok (_, Some [a]) => nrows a = 12%nat /\ ncols a = 12%nat /\ nd_get a 2 3 = Some (Some 5%Q) /\ nd_get a 4 6 = Some (Some 7%Q) /\ nd_get a 4 7 = Some (Some 20%Q) /\
          nd_get a 4 4 = Some (Some 10%Q) /\ nd_get a 0 0 = Some None
      | _ => False
      end
  | _ => False
  end.
Proof. split; [done|]. split; [apply wide_2_clean|]. split; [by vm_compute|]. split; [done|]. split; [done|]. vm_compute. by repeat split. Qed.

(** ** C38, from soundings to the values at locations, after any queries. The depth is that of grids whose vertical
    reference points down. Missing: the last row and column of cells, which always give NaN (C38_last_refuted). *)
Theorem C38_layers_sr_partial e alg r size b zarr disk g ct a dask g2 :
  alg = "mean" \/ alg = "shoalest" -> 0 < size -> sr_clean e known_args size b zarr disk g ct -> ct <> [] ->
  only_args alg r a -> (ga_regrid a = "update" -> ga_clear a = true) -> exn_of (g_grid sr_ops e g a dask) = None ->
  0 < r -> size mod r = 0 ->
  queried sr_ops e (st_of (g_grid sr_ops e g a dask)) g2 ->
  (m_positive_up (g_meta g2) = false -> values_by sr_ops e g2 (if b then "intensity" else "depth") r (all_points ct) (depth_by alg)) /\
  values_by sr_ops e g2 "density" r (all_points ct) (fun d v => v = Some (numQ (length d))) /\
  (alg = "mean" -> has_tvu (e_dt e) = true -> values_by sr_ops e g2 "vertical_uncertainty" r (all_points ct) (fun d => mean_cell (map ptvu d))) /\
  (alg = "mean" -> has_thu (e_dt e) = true -> values_by sr_ops e g2 "horizontal_uncertainty" r (all_points ct) (fun d => mean_cell (map pthu d))).
Proof.
  intros Halg Hs H Hne Ha Hu Hx Hr Hm Hq. destruct (C88_sr e alg r size b zarr disk g ct a dask g2 Halg Hs H Hne Ha Hu Hx Hr Hm Hq) as [D1 D2].
  assert (HC : sr_clean e known_args size b zarr disk g2 ct) by (destruct (simple_cases _ Halg) as [sa ->]; by apply (sr_after e sa r a dask ct Ha Hu size b zarr disk g g2)).
  destruct (sr_sounding e size b zarr disk g2 ct Hs HC Hne) as (x & p & Hext & Hp). destruct (D2 false) as (E1 & E2 & E3).
  split; [|split; [|split]].
  - intros Hup. rewrite Hup in D1. apply (answers_values sr_ops e g2 _ r _ _ x D1 Hr Hext); [|by exists p].
    intros d v Hd. unfold depth_by. case_bool_decide; [by apply mean_some|by apply least_some].
  - apply (answers_values sr_ops e g2 _ r _ _ x E1 Hr Hext); [|by exists p]. by intros d v _ ->.
  - intros M T. apply (answers_values sr_ops e g2 _ r _ _ x (E2 M T) Hr Hext); [|by exists p]. intros d v Hd. by apply mean_some.
  - intros M T. apply (answers_values sr_ops e g2 _ r _ _ x (E3 M T) Hr Hext); [|by exists p]. intros d v Hd. by apply mean_some.
Qed.
Theorem C38_layers_vr_partial e alg r size sub b zarr disk g ct a dask g2 :
  alg = "mean" \/ alg = "shoalest" -> 0 < size -> 0 < sub -> vr_clean e known_args size sub b zarr disk g ct -> ct <> [] ->
  only_args alg r a -> (ga_regrid a = "update" -> ga_clear a = true) -> exn_of (g_grid vr_ops e g a dask) = None ->
  0 < r -> size mod sub = 0 -> sub mod r = 0 ->
  queried vr_ops e (st_of (g_grid vr_ops e g a dask)) g2 ->
  (m_positive_up (g_meta g2) = false -> values_by vr_ops e g2 "depth" r (all_points ct) (depth_by alg)) /\
  values_by vr_ops e g2 "density" r (all_points ct) (fun d v => v = Some (numQ (length d))) /\
  (alg = "mean" -> has_tvu (e_dt e) = true -> values_by vr_ops e g2 "vertical_uncertainty" r (all_points ct) (fun d => mean_cell (map ptvu d))) /\
  (alg = "mean" -> has_thu (e_dt e) = true -> values_by vr_ops e g2 "horizontal_uncertainty" r (all_points ct) (fun d => mean_cell (map pthu d))).
Proof.
  intros Halg Hs Hsub H Hne Ha Hu Hx Hr Hm1 Hm2 Hq. destruct (C88_vr e alg r size sub b zarr disk g ct a dask g2 Halg Hs Hsub H Hne Ha Hu Hx Hr Hm1 Hm2 Hq) as [D1 D2].
  assert (HC : vr_clean e known_args size sub b zarr disk g2 ct) by (destruct (simple_cases _ Halg) as [sa ->]; by apply (vr_after e sa r a dask ct Ha Hu size sub b zarr disk g g2)).
  destruct (vr_sounding e size sub b zarr disk g2 ct Hs Hsub HC Hne) as (x & p & Hext & Hp). destruct (D2 false) as (E1 & E2 & E3).
  split; [|split; [|split]].
  - intros Hup. rewrite Hup in D1. apply (answers_values vr_ops e g2 _ r _ _ x D1 Hr Hext); [|by exists p].
    intros d v Hd. unfold depth_by. case_bool_decide; [by apply mean_some|by apply least_some].
  - apply (answers_values vr_ops e g2 _ r _ _ x E1 Hr Hext); [|by exists p]. by intros d v _ ->.
  - intros M T. apply (answers_values vr_ops e g2 _ r _ _ x (E2 M T) Hr Hext); [|by exists p]. intros d v Hd. by apply mean_some.
  - intros M T. apply (answers_values vr_ops e g2 _ r _ _ x (E3 M T) Hr Hext); [|by exists p]. intros d v Hd. by apply mean_some.
Qed.
Print Assumptions C38_layers_sr_partial.
Print Assumptions C38_layers_vr_partial.
(** The grid of C88_case: two locations with soundings, one without, one outside. *)
Example C38_vr_case : m_positive_up (g_meta wide_run) = false /\ m_ext (g_meta wide_run) = Some (Ext (-16) (-16) 32 32) /\
  match g_layer_values_at_xy vr_ops env_s wide_run [-3; 9; -15; 100] [-7; 2; -15; 0] "depth" (Some 4) None with
  | Ok (_, vals) => vals = [Some 5%Q; Some 7%Q; None; None]
  | _ => False
  end.
Proof. split; [by vm_compute|]. split; [by vm_compute|]. vm_compute. reflexivity. Qed.

(** ** C44, from soundings to pixels of variable resolution grids *)
Theorem C44_vr_points e alg r size sub zarr disk g ct a dask g2 nodata up mx :
  alg = "mean" \/ alg = "shoalest" -> 0 < size -> 0 < sub -> vr_clean e known_args size sub false zarr disk g ct -> ct <> [] ->
  only_args alg r a -> (ga_regrid a = "update" -> ga_clear a = true) -> exn_of (g_grid vr_ops e g a dask) = None ->
  0 < r -> size mod sub = 0 -> sub mod r = 0 ->
  queried vr_ops e (st_of (g_grid vr_ops e g a dask)) g2 ->
  exists out, g_get_chunks_of_tiles vr_ops e g2 r ["depth"] nodata up mx true = Ok (g2, out) /\
  forall geo data, (geo, data) ∈ out -> exists q d band, geo = Some q /\ data = [("depth", d)] /\ gdal_bands [d] = Ok [band] /\
  forall k c v, nd_get band k c = Some v ->
    exists w, depth_by alg (filter (fun p => in_pixel q k c (px p) (py p)) (all_points ct)) w /\ exported_as (xorb (m_positive_up (g_meta g2)) up) nodata w v.
Proof.
  intros Halg Hs Hsub H Hne Ha Hu Hx Hr Hm1 Hm2 Hq. apply (vr_depth_rasters e alg r size sub zarr disk g2 ct); try done.
  - destruct (simple_cases _ Halg) as [sa ->]. by destruct (vr_after e sa r a dask ct Ha Hu size sub false zarr disk g g2 Hs Hsub H Hx Hq).
  - by destruct (C88_vr e alg r size sub false zarr disk g ct a dask g2 Halg Hs Hsub H Hne Ha Hu Hx Hr Hm1 Hm2 Hq).
Qed.
Print Assumptions C44_vr_points.
(** The pixel of [wide_run] with the sounding of depth 5, elevations asked for. *)
Example C44_vr_points_case : match g_get_chunks_of_tiles vr_ops env_s wide_run 4 ["depth"] (Some 1000000%Q) true None true with
  | Ok (_, [(Some q, [(_, d)])]) => q = (-16, 4, 16) /\
      match gdal_bands [d] with Ok [band] => nd_get band 5 3 = Some (Some (-5)%Q) /\ nd_get band 5 4 = Some (Some 1000000%Q) | _ => False end
  | _ => False
  end.
Proof. vm_compute. by repeat split. Qed.

(** ** C45, whole grids *)
(** [c] is not the name of a layer; were it "Depth" in other letters, the sign convention would apply to it. *)
Theorem C45_sr e alg r size b zarr disk g ct a dask g2 c up :
  alg = "mean" \/ alg = "shoalest" -> 0 < size -> sr_clean e known_args size b zarr disk g ct -> ct <> [] ->
  only_args alg r a -> (ga_regrid a = "update" -> ga_clear a = true) -> exn_of (g_grid sr_ops e g a dask) = None ->
  0 < r -> size mod r = 0 -> queried sr_ops e (st_of (g_grid sr_ops e g a dask)) g2 ->
  c ∉ float_layers ++ slope_layers ++ int_layers -> up = m_positive_up (g_meta g2) \/ str_lower c <> "depth" ->
  exists g3, queried sr_ops e (st_of (g_grid sr_ops e g a dask)) g3 /\
    (forall d, (c, d) ∈ ct -> answers_to sr_ops e g2 c r up d (depth_by alg) g3) /\
    (c ∉ ct.*1 -> g_get_layers_by_name sr_ops e g2 [c] (Some r) None up = Ok (g3, None)).
Proof.
  intros Halg Hs H Hne Ha Hu Hx Hr Hm Hq Hc Hup. destruct (simple_cases _ Halg) as [sa ->].
  destruct (sr_after e sa r a dask ct Ha Hu size b zarr disk g g2 Hs H Hx Hq) as [HC HN].
  destruct (sr_container_answer e sa r size b zarr disk g2 ct c up Hs HC Hne HN Hr Hm) as (g3 & Q3 & A1 & A2).
  - unfold is_container_query. by rewrite bool_decide_eq_false_2.
  - destruct Hup as [->|?]; [left; unfold eff_up; by destruct (m_positive_up (g_meta g2))|by right].
  - exists g3. split; [by eapply queried_trans|]. split; [|done]. intros d Hd. specialize (A1 d Hd). by destruct sa.
Qed.
Theorem C45_vr e alg r size sub b zarr disk g ct a dask g2 c up :
  alg = "mean" \/ alg = "shoalest" -> 0 < size -> 0 < sub -> vr_clean e known_args size sub b zarr disk g ct -> ct <> [] ->
  only_args alg r a -> (ga_regrid a = "update" -> ga_clear a = true) -> exn_of (g_grid vr_ops e g a dask) = None ->
  0 < r -> size mod sub = 0 -> sub mod r = 0 -> queried vr_ops e (st_of (g_grid vr_ops e g a dask)) g2 ->
  c ∉ float_layers ++ slope_layers ++ int_layers -> up = m_positive_up (g_meta g2) \/ str_lower c <> "depth" ->
  exists g3, queried vr_ops e (st_of (g_grid vr_ops e g a dask)) g3 /\
    (forall d, (c, d) ∈ ct -> answers_to vr_ops e g2 c r up d (depth_by alg) g3) /\
    (c ∉ ct.*1 -> g_get_layers_by_name vr_ops e g2 [c] (Some r) None up = Ok (g3, None)).
Proof.
  intros Halg Hs Hsub H Hne Ha Hu Hx Hr Hm1 Hm2 Hq Hc Hup. destruct (simple_cases _ Halg) as [sa ->].
  destruct (vr_after e sa r a dask ct Ha Hu size sub b zarr disk g g2 Hs Hsub H Hx Hq) as [HC HN].
  destruct (vr_container_answer e sa r size sub b zarr disk g2 ct c up Hs Hsub HC Hne HN Hr Hm1 Hm2) as (g3 & Q3 & A1 & A2).
  - unfold is_container_query. by rewrite bool_decide_eq_false_2.
  - destruct Hup as [->|?]; [left; unfold eff_up; by destruct (m_positive_up (g_meta g2))|by right].
  - exists g3. split; [by eapply queried_trans|]. split; [|done]. intros d Hd. specialize (A1 d Hd). by destruct sa.
Qed.
Print Assumptions C45_sr.
Print Assumptions C45_vr.
Example C45_whole_case :
  match g_get_layers_by_name vr_ops env_s wide_run ["two"] (Some 4) None false, g_get_layers_by_name sr_ops env_s run_1 ["two"] (Some 4) None false with
  | Ok (_, Some [a]), Ok (_, Some [a']) =>
      nd_get a 2 3 = Some (Some 5%Q) /\ nd_get a 4 6 = Some (Some 7%Q) /\ nd_get a 4 7 = Some None /\
      nd_get a' 0 1 = Some (Some 5%Q) /\ nd_get a' 2 4 = Some (Some 7%Q) /\ nd_get a' 2 5 = Some None
  | _, _ => False
  end.
Proof. vm_compute. by repeat split. Qed.
(** The condition on the name is needed: the depths of a container named "Depth" come out with the sign flipped when the
    query asks for positive up. *)
Definition odd_run := sr_run env_s (sr_add (create_sr 8 false false true) pts_one "Depth") mean_4.
Theorem C45_sign_refuted :
  exists e size g ct a c d r a1 a2 q, 0 < size /\ sr_clean e known_args size false false true g ct /\ (c, d) ∈ ct /\
    c ∉ float_layers ++ slope_layers ++ int_layers /\ exn_of (g_grid sr_ops e g a None) = None /\
    (exists g', g_get_layers_by_name sr_ops e (st_of (g_grid sr_ops e g a None)) [c] (Some r) None false = Ok (g', Some [a1])) /\
    (exists g', g_get_layers_by_name sr_ops e (st_of (g_grid sr_ops e g a None)) [c] (Some r) None true = Ok (g', Some [a2])) /\
    nd_get a1 0 0 = Some (Some q) /\ nd_get a2 0 0 = Some (Some (- q)%Q) /\ (0 < q)%Q.
Proof.
  exists env_s, 8, (sr_add (create_sr 8 false false true) pts_one "Depth"), [("Depth", pts_one)], mean_4, "Depth", pts_one, 4.
  exists (match g_get_layers_by_name sr_ops env_s odd_run ["Depth"] (Some 4) None false with Ok (_, Some [x]) => x | _ => Nd 0 0 [] end).
  exists (match g_get_layers_by_name sr_ops env_s odd_run ["Depth"] (Some 4) None true with Ok (_, Some [x]) => x | _ => Nd 0 0 [] end), 10%Q.
  split; [done|]. split; [apply (CH_add _ _ _ _ (create_sr 8 false false true) [] pts_one (args_of "Depth")); [apply CH_new|by vm_compute]|].
  split; [left|]. split; [apply (bool_decide_unpack _); vm_compute; exact I|]. split; [by vm_compute|].
  split; [eexists; vm_compute; reflexivity|]. split; [eexists; vm_compute; reflexivity|]. by vm_compute.
Qed.
Print Assumptions C45_sign_refuted.

(** ** C89 *)
(** Slopes asked for after gridding are those of the soundings the grid holds, whatever slopes were asked for before. *)
Theorem C89_sr e alg r size b zarr disk g ct a dask g2 l up :
  alg = "mean" \/ alg = "shoalest" -> 0 < size -> sr_clean e known_args size b zarr disk g ct -> ct <> [] ->
  only_args alg r a -> (ga_regrid a = "update" -> ga_clear a = true) -> exn_of (g_grid sr_ops e g a dask) = None ->
  0 < r -> size mod r = 0 -> queried sr_ops e (st_of (g_grid sr_ops e g a dask)) g2 -> l ∈ ["x_slope"; "y_slope"] ->
  exists g3, queried sr_ops e (st_of (g_grid sr_ops e g a dask)) g3 /\ answers_to sr_ops e g2 l r up (all_points ct) (slope_cell e l) g3.
Proof.
  intros Halg Hs H Hne Ha Hu Hx Hr Hm Hq Hl. destruct (simple_cases _ Halg) as [sa ->].
  destruct (sr_after e sa r a dask ct Ha Hu size b zarr disk g g2 Hs H Hx Hq) as [HC HN].
  destruct (sr_slope_answer e sa r size b zarr disk g2 ct l up Hs HC Hne HN Hr Hm Hl) as (g3 & Q3 & A).
  exists g3. split; [by eapply queried_trans|done].
Qed.
Theorem C89_vr e alg r size sub b zarr disk g ct a dask g2 l up :
  alg = "mean" \/ alg = "shoalest" -> 0 < size -> 0 < sub -> vr_clean e known_args size sub b zarr disk g ct -> ct <> [] ->
  only_args alg r a -> (ga_regrid a = "update" -> ga_clear a = true) -> exn_of (g_grid vr_ops e g a dask) = None ->
  0 < r -> size mod sub = 0 -> sub mod r = 0 -> queried vr_ops e (st_of (g_grid vr_ops e g a dask)) g2 -> l ∈ ["x_slope"; "y_slope"] ->
  exists g3, queried vr_ops e (st_of (g_grid vr_ops e g a dask)) g3 /\ answers_to vr_ops e g2 l r up (all_points ct) (slope_cell e l) g3.
Proof.
  intros Halg Hs Hsub H Hne Ha Hu Hx Hr Hm1 Hm2 Hq Hl. destruct (simple_cases _ Halg) as [sa ->].
  destruct (vr_after e sa r a dask ct Ha Hu size sub b zarr disk g g2 Hs Hsub H Hx Hq) as [HC HN].
  destruct (vr_slope_answer e sa r size sub b zarr disk g2 ct l up Hs Hsub HC Hne HN Hr Hm1 Hm2 Hl) as (g3 & Q3 & A).
  exists g3. split; [by eapply queried_trans|done].
Qed.
Print Assumptions C89_sr.
Print Assumptions C89_vr.
(** Slopes asked for, one more sounding in the cell of another added, gridded again, slopes asked for again; the fit of the
    sample environment counts the soundings. *)
Definition slope_at {T} (O : tile_ops T) (g : grid T) (R C : nat) : option cell :=
  match g_get_layers_by_name O env_s g ["x_slope"] (Some 4) None false with Ok (_, Some [a]) => nd_get a R C | _ => None end.
Definition asked {T} (O : tile_ops T) (g : grid T) : grid T :=
  match g_get_layers_by_name O env_s g ["x_slope"] (Some 4) None false with Ok (g', _) => g' | _ => g end.
Example C89_case :
  slope_at sr_ops run_1 0 1 = Some (Some 1%Q) /\
  slope_at sr_ops (sr_run env_s (sr_add (asked sr_ops run_1) pts_three "three") mean_4) 0 1 = Some (Some 2%Q) /\
  slope_at vr_ops wide_run 2 3 = Some (Some 1%Q) /\
  slope_at vr_ops (vr_run env_s (vr_add (asked vr_ops wide_run) pts_three "three") mean_4) 2 3 = Some (Some 2%Q).
Proof. vm_compute. by repeat split. Qed.
