(** Properties of other attributes, queries and files: C79 to C87. *)
From Coq Require Import Lqa.
From Verif Require Import Py Nd Numpy Point Bin Algorithms Tile Time Meta Disk Grid GridRun GridQuery GridOps Export Spec TileExec GridExec Views ViewsSpec Samples GridSamples.
From Verif Require Import PyFacts NumpyFacts GridSrFacts GridHistFacts GridUpdateFacts GridReadFacts GridAnswerFacts GridTrimFacts GridCountFacts GridExportFacts ViewsFacts.
Open Scope Z_scope.

(** ** C79 *)
(** density_count_vs_depth pairs the density of every cell with a positive density with the depth of that cell. *)
Theorem C79_sr e size zarr disk g ct : 0 < size -> sr_clean e known_args size false zarr disk g ct ->
  (exists dz, g_vs_depth t_density_count_vs_depth g = Ok dz /\ pairs_are (concat (map dense_cells_of (live_tiles g))) dz) /\
  (exists dz, g_vs_depth (t_density_sqm_vs_depth e) g = Ok dz /\ pairs_are (concat (map (dense_cells_sqm e) (live_tiles g))) dz).
Proof.
  intros Hs H. split; apply grid_vs_depth; intros t Ht; destruct (sr_tile_ok _ _ _ _ _ _ _ _ Hs H Ht) as (HG & HH & Hb);
    [by eapply tile_count_vs_depth|by eapply tile_sqm_vs_depth].
Qed.
Theorem C79_vr e size sub b zarr disk g ct : 0 < size -> 0 < sub -> vr_clean e known_args size sub b zarr disk g ct ->
  (exists dz, g_vs_depth (g_vs_depth t_density_count_vs_depth) g = Ok dz /\ pairs_are (concat (map dense_cells_of (vr_tiles g))) dz) /\
  (exists dz, g_vs_depth (g_vs_depth (t_density_sqm_vs_depth e)) g = Ok dz /\ pairs_are (concat (map (dense_cells_sqm e) (vr_tiles g))) dz).
Proof.
  intros Hs Hsub H. unfold vr_tiles. rewrite !concat_map_concat, !map_map. split; (apply (grid_vs_depth _ (fun sg => concat (map _ (live_tiles sg)))); intros sg Hsg; apply grid_vs_depth;
    intros t Ht; destruct (vr_tile_ok _ _ _ _ _ _ _ _ _ _ Hs Hsub H Hsg Ht) as (HG & HH & Hb)); [by eapply tile_count_vs_depth|by eapply tile_sqm_vs_depth].
Qed.
(** When the layers are those of the points held (as after grid('mean'), C24), these are the numbers of points and the
    means of the cells with points. *)
Theorem C79_points e r size ct g : sr_reflects e "mean" r size false ct g -> forall x y t, has_tile g x y t ->
  exists n, cells_cover size r n /\ pairs_of_points x y r n (filter (fun p => in_square x y size (px p) (py p)) (all_points ct)) (dense_cells t r).
Proof.
  intros H x y t (k & Ho & Ht). specialize (H k x y Ho). cbv zeta in H. rewrite Ht in H. destruct H as (_ & _ & H). by eapply reflects_pairs.
Qed.
Theorem C79_points_vr e r size sub ct g : vr_reflects e "mean" r size sub ct g -> forall x y sg u v t, has_tile g x y sg -> has_tile sg u v t ->
  exists n, cells_cover sub r n /\
    pairs_of_points u v r n (filter (fun p => in_square x y size (px p) (py p) /\ in_square u v sub (px p) (py p)) (all_points ct)) (dense_cells t r).
Proof.
  intros H x y sg u v t Hsg (j & Ho & Ht). specialize (H x y sg j u v Hsg Ho). cbv zeta in H. rewrite Ht in H. destruct H as (_ & _ & H). exact (reflects_pairs _ _ _ _ _ _ _ H).
Qed.
(** A backscatter grid has no depth: once a tile is gridded, the attributes raise. *)
Theorem C79_backscatter e size zarr disk g ct : 0 < size -> sr_clean e known_args size true zarr disk g ct -> (exists t, t ∈ live_tiles g /\ t_cells t <> []) ->
  g_vs_depth t_density_count_vs_depth g = Raise ValueError /\ g_vs_depth (t_density_sqm_vs_depth e) g = Raise ValueError.
Proof.
  intros Hs H (t0 & H0 & Hc0).
  assert (HT : forall t, t ∈ live_tiles g -> t_cells t <> [] -> t_density_count_vs_depth t = Raise ValueError /\ t_density_sqm_vs_depth e t = Raise ValueError).
  { intros t Ht Hc. destruct (sr_tile_ok _ _ _ _ _ _ _ _ Hs H Ht) as (HG & HH & Hb). by apply tile_vs_depth_bs. }
  assert (HN : forall t, t_cells t = [] -> (exists b, t_density_count_vs_depth t = Ok b) /\ exists b, t_density_sqm_vs_depth e t = Ok b).
  { intros t E. unfold t_density_count_vs_depth, t_density_sqm_vs_depth. rewrite E. by split; eexists. }
  assert (HR : rmap t_density_count_vs_depth (live_tiles g) = Raise ValueError /\ rmap (t_density_sqm_vs_depth e) (live_tiles g) = Raise ValueError).
  { split; (apply rmap_Raise; [|exists t0; split; [done|]; by apply HT]); intros t Ht; (destruct (decide (t_cells t = [])) as [E|E]; [left; by apply HN|right; by apply HT]). }
  unfold g_vs_depth. destruct HR as [-> ->]. done.
Qed.

Example C79_example :
  g_vs_depth t_density_count_vs_depth two_rez =
    Ok ([1; 1; 1; 1; 2; 1; 1; 2], [Some 5; Some 5; Some 10; Some 30; Some 20; Some 7; Some 20; Some (27 # 2)])%Q /\
  concat (map dense_cells_of (live_tiles two_rez)) =
    [(1, Some 5); (1, Some 5); (1, Some 10); (1, Some 30); (2, Some 20); (1, Some 7); (1, Some 20); (2, Some (27 # 2))]%Q.
Proof. vm_compute. split; reflexivity. Qed.
Example C79_example_case : sr_clean env_s known_args 8 false false true run_2 ct_3 /\ vr_clean env_s known_args 16 5 false false true vrun_2 ct_3 /\
  g_vs_depth (g_vs_depth t_density_count_vs_depth) vrun_2 = Ok ([1; 1; 1; 1; 1], [Some 5; Some 10; Some 7; Some 20; Some 30])%Q.
Proof.
  split; [eapply clean_mono, run_2_clean; apply only_mean_known|]. split; [eapply clean_mono, vrun_2_clean; apply only_mean_known|]. vm_compute. reflexivity.
Qed.
Definition bs_0 := sr_add (create_sr 8 true false true) pts_one "one".
Example C79_example_backscatter : g_vs_depth t_density_count_vs_depth (sr_run env_s bs_0 mean_4) = Raise ValueError.
Proof. vm_compute. reflexivity. Qed.

(** ** C80 *)
(** has_vertical_uncertainty and has_horizontal_uncertainty: the grid holds points and they have the column. *)
Theorem C80_sr e size b zarr disk g ct seen ok : 0 < size -> sr_history e size b zarr disk g ct seen ok ->
  sr_has_column has_tvu e g = Some (negb (bool_decide (ct = [])) && has_tvu (e_dt e)) /\
  sr_has_column has_thu e g = Some (negb (bool_decide (ct = [])) && has_thu (e_dt e)).
Proof. intros Hs H. split; by eapply sr_flag. Qed.
Theorem C80_vr e size sub b zarr disk g ct seen ok : 0 < size -> 0 < sub -> vr_history e size sub b zarr disk g ct seen ok ->
  vr_has_column has_tvu e g = Ok (Some (negb (bool_decide (ct = [])) && has_tvu (e_dt e))) /\
  vr_has_column has_thu e g = Ok (Some (negb (bool_decide (ct = [])) && has_thu (e_dt e))).
Proof. intros Hs Hsub H. split; exact (vr_flag _ _ _ _ _ _ _ _ _ _ _ Hs Hsub H). Qed.

Example C80_example : sr_has_column has_tvu env_s run_1 = Some true /\ sr_has_column has_tvu env_plain run_1 = Some (has_tvu (e_dt env_plain)) /\
  vr_has_column has_thu env_s vrun_1 = Ok (Some true) /\ sr_has_column has_tvu env_s (create_sr 8 false false true) = Some false.
Proof. vm_compute. repeat split. Qed.

(** ** C81 *)
(** get_tiles_by_resolution gives every tile once, at its place; together they are the layer of the whole grid. *)
Theorem C81_sr e size b zarr disk g ct seen ok r n l nodata up g' o :
  0 < size -> sr_history e size b zarr disk g ct seen ok -> ct <> [] -> 0 < r -> size = Z.of_nat n * r ->
  g_get_layers_by_name sr_ops e g [l] (Some r) nodata up = Ok (g', o) ->
  exists x ds, m_ext (g_meta g) = Some x /\ g_get_tiles_by_resolution sr_ops e g (Some r) [l] nodata up = Ok (g', ds) /\
    length ds = length (live_tiles g) /\ laid_out l n (layer_nodata l nodata) ds o /\ Forall (at_its_place x r n) ds.
Proof.
  intros Hs H Hne Hr Hn Hq. apply (sr_inv e size b zarr disk Hs) in H.
  destruct (root_slot (new_sr_meta 0 0 size b zarr) _ _ _ _ _ Hs H Hne) as (lx & ly & nx & ny & HF & HS). cbn [m_tile_size new_sr_meta new_meta] in HF, HS.
  assert (Hn0 : (0 < n)%nat) by (destruct n; lia). pose proof (fr_box _ _ _ _ _ _ _ HF r n Hr Hn0 Hn) as HB.
  eexists _, _. split; [apply HF|]. split; [by apply (tiles_run sr_ops e g r l nodata up nx ny n HB g' o)|].
  split; [by eapply entry_length|]. split; [by eapply (tiles_laid sr_ops e g r l nodata up nx ny n HB)|].
  eapply geo_of; try done. intros k t Ht q Hgeo. destruct (HS k t Ht) as (ct' & (A1 & A2 & A3 & _) & _).
  cbn in Hgeo. unfold t_get_geotransform in Hgeo. destruct (dmem _ _); [|done]. injection Hgeo as <-. unfold t_max_y. rewrite A1, A2, A3. f_equal. lia.
Qed.
Theorem C81_vr e size sub b zarr disk g ct seen ok r n l nodata up g' o :
  0 < size -> 0 < sub -> vr_history e size sub b zarr disk g ct seen ok -> ct <> [] -> 0 < r -> size = Z.of_nat n * r ->
  g_get_layers_by_name vr_ops e g [l] (Some r) nodata up = Ok (g', o) ->
  exists x ds, m_ext (g_meta g) = Some x /\ g_get_tiles_by_resolution vr_ops e g (Some r) [l] nodata up = Ok (g', ds) /\
    length ds = length (live_tiles g) /\ laid_out l n (layer_nodata l nodata) ds o /\ Forall (at_its_place x r n) ds.
Proof.
  intros Hs Hsub H Hne Hr Hn Hq. apply (vr_inv e size sub b zarr disk Hs Hsub) in H.
  destruct (root_slot (new_vr_meta 0 0 size sub b zarr) _ _ _ _ _ Hs H Hne) as (lx & ly & nx & ny & HF & HS). cbn [m_tile_size new_vr_meta new_meta] in HF, HS.
  assert (Hn0 : (0 < n)%nat) by (destruct n; lia). pose proof (fr_box _ _ _ _ _ _ _ HF r n Hr Hn0 Hn) as HB.
  eexists _, _. split; [apply HF|]. split; [by apply (tiles_run vr_ops e g r l nodata up nx ny n HB g' o)|].
  split; [by eapply entry_length|]. split; [by eapply (tiles_laid vr_ops e g r l nodata up nx ny n HB)|].
  eapply geo_of; try done. intros k t Ht q Hgeo. destruct (HS k t Ht) as (ct' & HC & _).
  cbn in Hgeo. rewrite (GridInvFacts.cb_ext _ _ _ _ _ _ HC) in Hgeo. injection Hgeo as <-. cbn [x0 y1]. f_equal. lia.
Qed.

Example C81_example :
  match g_get_tiles_by_resolution sr_ops env_s run_1 (Some 4) ["depth"] None false with Ok p => p.2 | Raise _ => [] end =
  [TileRead [("depth", Nd 2 2 [None; Some 5; None; None])] (Some (-8, 4, 0)%Z) 0 0 2;
   TileRead [("depth", Nd 2 2 [Some 10; None; Some 30; None])] (Some (0, 4, 8)%Z) 2 2 2;
   TileRead [("depth", Nd 2 2 [Some 7; Some 20; None; None])] (Some (8, 4, 8)%Z) 2 4 2]%Q /\
  match g_get_layers_by_name sr_ops env_s run_1 ["depth"] (Some 4) None false with
  | Ok (_, Some [a]) => nd_get a 0 1 = Some (Some 5%Q) /\ nd_get a 3 2 = Some (Some 30%Q) /\ nd_get a 2 5 = Some (Some 20%Q) /\ nd_get a 0 5 = Some None
  | _ => False
  end.
Proof. vm_compute. repeat split. Qed.

(** ** C82 *)
(** The line that get_tile_boundaries returns stays within the extents of the grid. *)
Theorem C82_refuted : exists g ct seen ok pts x p, sr_history env_s 8 false false true g ct seen ok /\ ct <> [] /\ m_ext (g_meta g) = Some x /\
  g_tile_boundaries g = Ok pts /\ p ∈ pts /\ x1 x < p.1.
Proof.
  exists sr_1, [("one", pts_one)], pts_one, true, (match g_tile_boundaries sr_1 with Ok l => l | Raise _ => [] end), (Ext 0 0 16 8), (24, 0).
  split; [apply (GH_add sr_ops env_s _ _ [] [] true pts_one (args_of "one")); [apply GH_new|vm_compute; reflexivity]|].
  split; [done|]. split; [vm_compute; reflexivity|]. split; [vm_compute; reflexivity|]. split; [apply (bool_decide_unpack _); vm_compute; exact I|done].
Qed.
(** It consists of steps along the axes and draws the square of every tile location, but goes one tile beyond the
    largest x and y. *)
Theorem C82_sr_partial e size b zarr disk g ct seen ok : 0 < size -> sr_history e size b zarr disk g ct seen ok -> ct <> [] ->
  exists pts x, m_ext (g_meta g) = Some x /\ g_tile_boundaries g = Ok pts /\ along_axes pts /\
    (forall k u v, origin_at g k = Some (u, v) -> draws (square_line size u v) pts) /\
    Forall (fun p => x0 x <= p.1 <= x1 x + size /\ y0 x <= p.2 <= y1 x + size) pts.
Proof.
  intros Hs H Hne. apply (sr_inv e size b zarr disk Hs) in H. destruct (frame_edges _ _ _ _ _ _ H Hne) as (lx & ly & nx & ny & H1 & H2 & H3 & H4 & H5 & H6).
  cbn [m_tile_size new_sr_meta new_meta] in H3, H4, H5, H6. destruct (boundaries_spec g size lx ly nx ny H1 H2 Hs H3 H4 H5) as (pts & B1 & B2 & B3 & B4).
  eexists pts, _. split; [done|]. split; [done|]. split; [done|]. cbn [x0 x1 y0 y1]. split.
  - intros k u v (i & j & Hi & Hj & -> & ->)%H6. by apply B3.
  - eapply Forall_impl; [exact B4|]. intros p. cbn. lia.
Qed.
Theorem C82_vr_partial e size sub b zarr disk g ct seen ok : 0 < size -> 0 < sub -> vr_history e size sub b zarr disk g ct seen ok -> ct <> [] ->
  exists pts x, m_ext (g_meta g) = Some x /\ g_tile_boundaries g = Ok pts /\ along_axes pts /\
    (forall k u v, origin_at g k = Some (u, v) -> draws (square_line size u v) pts) /\
    Forall (fun p => x0 x <= p.1 <= x1 x + size /\ y0 x <= p.2 <= y1 x + size) pts.
Proof.
  intros Hs Hsub H Hne. apply (vr_inv e size sub b zarr disk Hs Hsub) in H. destruct (frame_edges _ _ _ _ _ _ H Hne) as (lx & ly & nx & ny & H1 & H2 & H3 & H4 & H5 & H6).
  cbn [m_tile_size new_vr_meta new_meta] in H3, H4, H5, H6. destruct (boundaries_spec g size lx ly nx ny H1 H2 Hs H3 H4 H5) as (pts & B1 & B2 & B3 & B4).
  eexists pts, _. split; [done|]. split; [done|]. split; [done|]. cbn [x0 x1 y0 y1]. split.
  - intros k u v (i & j & Hi & Hj & -> & ->)%H6. by apply B3.
  - eapply Forall_impl; [exact B4|]. intros p. cbn. lia.
Qed.
Example C82_example : g_tile_boundaries sr_1 = Ok
  [(0, 0); (8, 0); (8, 8); (0, 8); (0, 0); (8, 0); (16, 0); (16, 8); (8, 8); (8, 0); (16, 0); (24, 0); (24, 8); (16, 8); (16, 0); (16, 8);
   (0, 8); (8, 8); (8, 16); (0, 16); (0, 8); (8, 8); (16, 8); (16, 16); (8, 16); (8, 8); (16, 8); (24, 8); (24, 16); (16, 16); (16, 8); (16, 8)].
Proof. vm_compute. reflexivity. Qed.

(** ** C83 *)
(** The form in which the same locations are given does not matter. *)
Theorem C83_refuted : exists xs ys p, g_layer_values_at sr_ops env_s run_1 (LTuple xs) (LList ys) "depth" None None = Ok p /\
  g_layer_values_at sr_ops env_s run_1 (LTuple xs) (LTuple ys) "depth" None None = Raise TypeError.
Proof.
  exists [1; -3], [1; -8], (run_1, Values [Some 10; Some 5]%Q). split; vm_compute; reflexivity.
Qed.
(** It does not matter except for a tuple of y coordinates. *)
Theorem C83_lists_partial {T} (O : tile_ops T) e (g : grid T) xs ys layer rez nodata x y :
  x ∈ [LTuple xs; LList xs; LArr xs] -> y ∈ [LList ys; LArr ys] ->
  g_layer_values_at O e g x y layer rez nodata = let* r := g_layer_values_at_xy O e g xs ys layer rez nodata in Ok (r.1, Values r.2).
Proof.
  intros Hx Hy. apply elem_of_list_In in Hx, Hy. cbn in Hx, Hy.
  assert (E : g_layer_values_at O e g (LArr xs) (LArr ys) layer rez nodata = let* r := g_layer_values_at_xy O e g xs ys layer rez nodata in Ok (r.1, Values r.2)).
  { unfold g_layer_values_at, validate_locs, g_layer_values_at_xy. cbn [loc_x loc_y]. cbv zeta. destruct (negb (length xs =? length ys)%nat) eqn:E; cbn [rbind]; [done|]. by rewrite E. }
  destruct Hx as [<-|[<-|[<-|[]]]], Hy as [<-|[<-|[]]]; exact E.
Qed.
Theorem C83_number_partial {T} (O : tile_ops T) e (g : grid T) a b layer rez nodata x y :
  x ∈ [LNum a; LTuple [a]; LList [a]; LArr [a]] -> y ∈ [LNum b; LList [b]; LArr [b]] -> x = LNum a \/ y = LNum b ->
  g_layer_values_at O e g x y layer rez nodata = g_layer_values_at O e g (LNum a) (LNum b) layer rez nodata /\
  match g_layer_values_at O e g (LNum a) (LNum b) layer rez nodata, g_layer_values_at O e g (LArr [a]) (LArr [b]) layer rez nodata with
  | Ok (g1, Value v), Ok (g2, Values l) => g1 = g2 /\ l = [v]
  | Raise x1, Raise x2 => x1 = x2
  | _, _ => False
  end.
Proof.
  intros Hx Hy Hn. apply elem_of_list_In in Hx, Hy. cbn in Hx, Hy. split.
  - destruct Hx as [<-|[<-|[<-|[<-|[]]]]], Hy as [<-|[<-|[<-|[]]]]; try done; by destruct Hn.
  - unfold g_layer_values_at, validate_locs, g_layer_values_at_xy, query_rezs. cbn [loc_x loc_y loc_float rbind length Nat.eqb negb zip zip_with replicate].
    pose proof (number_is_array O e layer nodata a b (match rez with Some r => [r] | None => merge_sort Z.le (m_rezs (g_meta g)) end) g nodata) as H.
    cbn [zip zip_with] in H. destruct (foldl (number_step _ _ _ _ _) _ _) as [[g1 v]|x1]; destruct (foldl (query_step _ _ _ _ _) _ _) as [[g2 l]|x2]; cbn [rbind fst snd] in H |- *; try done.
    + injection H as -> <-. done.
    + by injection H as ->.
Qed.
Example C83_example :
  g_layer_values_at sr_ops env_s run_1 (LNum 1) (LNum 1) "depth" None None = Ok (run_1, Value (Some 10%Q)) /\
  g_layer_values_at sr_ops env_s run_1 (LArr [1]) (LList [1]) "depth" None None = Ok (run_1, Values [Some 10%Q]) /\
  g_layer_values_at sr_ops env_s run_1 (LTuple [1; -3]) (LList [1; -8]) "depth" None None = Ok (run_1, Values [Some 10; Some 5]%Q).
Proof. vm_compute. repeat split. Qed.

(** ** C84 *)
(** Data that is accepted has the coordinates and the depth (or intensity) of every point. *)
Theorem C84_refuted :
  (exists names cols, validate_input_data (RawArray (Some names)) = Ok cols /\ "z" ∉ cols) /\
  (exists vars n cols, validate_input_data (RawDataset vars n) = Ok cols /\ "y" ∉ cols).
Proof.
  split; [exists ["x"; "y"], ["x"; "y"]|exists ["x"; "z"], 1%nat, ["x"; "z"]]; (split; [vm_compute; reflexivity|apply (bool_decide_unpack _); vm_compute; exact I]).
Qed.
(** Arrays have x and y and keep all columns; datasets have x and z, z is one-dimensional, and exactly the known columns are kept. *)
Theorem C84_partial d cols : validate_input_data d = Ok cols ->
  (exists names, d = RawArray (Some names) /\ cols = names /\ "x" ∈ cols /\ "y" ∈ cols) \/
  (exists vars n, d = RawDataset vars n /\ (n <= 1)%nat /\ "x" ∈ cols /\ "z" ∈ cols /\
     forall c, c ∈ cols <-> c ∈ vars /\ c ∈ ["x"; "y"; "z"; "tvu"; "thu"]).
Proof.
  destruct d as [[names|]|vars n|]; cbn [validate_input_data]; try done.
  - destruct (bool_decide ("x" ∈ names)) eqn:Ex, (bool_decide ("y" ∈ names)) eqn:Ey; try done. intros [= <-]. left.
    apply bool_decide_eq_true in Ex, Ey. by exists names.
  - destruct (bool_decide ("x" ∈ vars)) eqn:Ex; [|done]. destruct (bool_decide ("z" ∈ vars)) eqn:Ez; [|done]. apply bool_decide_eq_true in Ex, Ez.
    cbn [negb]. destruct (1 <? n)%nat eqn:En; [done|]. apply Nat.ltb_ge in En. intros [= <-]. right. exists vars, n. split; [done|]. split; [done|].
    assert (HK : forall c, c ∈ kept_columns vars <-> c ∈ vars /\ c ∈ ["x"; "y"; "z"; "tvu"; "thu"]) by (intros c; unfold kept_columns; by rewrite elem_of_list_filter).
    split; [|split; [|done]]; apply HK; (split; [done|apply (bool_decide_unpack _); vm_compute; exact I]).
Qed.
Theorem C84_rejected names : "x" ∉ names \/ "y" ∉ names -> validate_input_data (RawArray (Some names)) = Raise ValueError.
Proof. intros H. cbn. destruct H as [H|H]; rewrite (bool_decide_eq_false_2 _ H); by rewrite ?andb_false_r. Qed.
Example C84_example : validate_input_data (RawArray (Some ["x"; "y"; "z"])) = Ok ["x"; "y"; "z"] /\
  validate_input_data (RawDataset ["tvu"; "beam"; "x"; "y"; "z"] 1) = Ok ["x"; "y"; "z"; "tvu"] /\
  validate_input_data (RawDataset ["x"; "y"; "z"] 2) = Raise ValueError /\ validate_input_data RawOther = Raise ValueError.
Proof. vm_compute. repeat split. Qed.

(** ** C85 *)
(** coverage_area_square_nm is the covered area in square nautical miles of 1852 m by 1852 m. *)
Theorem C85_refuted : exists q a, g_coverage_nm (t_coverage_nm env_s) run_2 = Ok q /\ g_coverage_area sr_ops env_s run_2 = Ok a /\ ~ (q * (1852 * 1852) == a)%Q.
Proof.
  exists (58971739432614800720000 # 40505211144739111431213281728), 5%Q. split; [vm_compute; reflexivity|]. split; [vm_compute; reflexivity|]. vm_compute. discriminate.
Qed.
(** It is within 0.13 percent of that. *)
Theorem C85_sr_partial e g a : g_coverage_area sr_ops e g = Ok a -> exists q, g_coverage_nm (t_coverage_nm e) g = Ok q /\
  (q * (3434290012 # 1000) == a)%Q /\ (Qabs (q - a / (1852 * 1852)) <= (13 # 10000) * Qabs (a / (1852 * 1852)))%Q.
Proof.
  intros H. destruct (nm_spec (t_coverage_area e) (t_coverage_nm e) g a) as (q & H1 & H2); [|exact H|].
  { intros t q Ht. unfold t_coverage_nm. rewrite Ht. cbn [rbind]. eexists. split; [done|]. field. }
  exists q. split; [done|]. split; [done|]. by apply nm_error.
Qed.
Theorem C85_vr_partial e g a : g_coverage_area vr_ops e g = Ok a -> exists q, g_coverage_nm (g_coverage_nm (t_coverage_nm e)) g = Ok q /\
  (q * (3434290012 # 1000) == a)%Q /\ (Qabs (q - a / (1852 * 1852)) <= (13 # 10000) * Qabs (a / (1852 * 1852)))%Q.
Proof.
  intros H. destruct (nm_spec (g_coverage_area sr_ops e) (g_coverage_nm (t_coverage_nm e)) g a) as (q & H1 & H2); [|exact H|].
  { intros sg b Hsg. apply (nm_spec (t_coverage_area e) (t_coverage_nm e) sg b); [|exact Hsg].
    intros t q Ht. unfold t_coverage_nm. rewrite Ht. cbn [rbind]. eexists. split; [done|]. field. }
  exists q. split; [done|]. split; [done|]. by apply nm_error.
Qed.
Example C85_example : g_coverage_area sr_ops env_s run_2 = Ok 5%Q /\ exists q, g_coverage_nm (t_coverage_nm env_s) run_2 = Ok q /\ (q == 5000 # 3434290012)%Q.
Proof. split; [vm_compute; reflexivity|]. eexists (58971739432614800720000 # 40505211144739111431213281728). split; vm_compute; reflexivity. Qed.

(** ** C86 *)
(** The vertical reference of an exported BAG, whose elevations are positive up, does not declare a depth axis pointing down. *)
Theorem C86_refuted : exists vert g' fs f, export_bag sr_ops env_s run_1 None None vert = Ok (g', fs) /\ f ∈ fs /\ occurs """depth (D)"",down" (bf_vert f) /\
  "Elevation" ∈ rf_names (bf_raster f).
Proof.
  exists "VERTCRS[""MLLW depth"",CS[vertical,1],AXIS[""depth (D)"",down]]".
  destruct (export_bag sr_ops env_s run_1 None None "VERTCRS[""MLLW depth"",CS[vertical,1],AXIS[""depth (D)"",down]]") as [[g' fs]|x] eqn:E.
  2:{ assert (H : match export_bag sr_ops env_s run_1 None None "VERTCRS[""MLLW depth"",CS[vertical,1],AXIS[""depth (D)"",down]]" with Ok _ => true | Raise _ => false end = true) by (vm_compute; reflexivity).
      rewrite E in H. discriminate H. }
  assert (H : match export_bag sr_ops env_s run_1 None None "VERTCRS[""MLLW depth"",CS[vertical,1],AXIS[""depth (D)"",down]]" with
    Ok (_, [f]) => bool_decide ("Elevation" ∈ rf_names (bf_raster f)) | _ => false end = true) by (vm_compute; reflexivity).
  rewrite E in H. destruct fs as [|f [|]]; [discriminate H| |discriminate H]. exists g', [f], f. split; [reflexivity|]. split; [by left|].
  destruct (bag_range _ _ _ _ _ _ _ _ E f ltac:(left)) as (-> & _ & _). split; [|apply bool_decide_eq_true in H; exact H].
  exists "VERTCRS[""MLLW depth"",CS[vertical,1],AXIS[", "]]". vm_compute. reflexivity.
Qed.
(** The reference given is handed on as it is, an empty one as unknown. *)
Theorem C86_partial {T} (O : tile_ops T) e (g : grid T) rez mx vert g' fs f : export_bag O e g rez mx vert = Ok (g', fs) -> f ∈ fs ->
  bf_vert f = (if bool_decide (vert = "") then "VERT_CS[""unknown"", VERT_DATUM[""unknown"", 2000]]" else vert) /\
  forall text, vert <> "" -> ~ occurs text vert -> ~ occurs text (bf_vert f).
Proof.
  intros H Hf. destruct (bag_range _ _ _ _ _ _ _ _ H f Hf) as (-> & _ & _). split; [done|]. intros text Hne Ho. unfold bag_vertical_wkt. by rewrite bool_decide_eq_false_2.
Qed.
Example C86_example : match export_bag sr_ops env_s run_1 None None "" with Ok (_, [f]) => bf_vert f = "VERT_CS[""unknown"", VERT_DATUM[""unknown"", 2000]]" | _ => False end.
Proof. vm_compute. reflexivity. Qed.

(** ** C87 *)
(** The maximum and minimum elevation recorded in a BAG are those of the set cells of its first band; without set cells
    none are recorded. *)
Theorem C87_elevation_range {T} (O : tile_ops T) e (g : grid T) rez mx vert g' fs f : export_bag O e g rez mx vert = Ok (g', fs) -> f ∈ fs ->
  exists b rest, rf_bands (bf_raster f) = b :: rest /\
    (set_values 1000000 b <> [] -> exists hl more, bf_ranges f = hl :: more /\ is_range (set_values 1000000 b) hl) /\
    (set_values 1000000 b = [] -> bf_ranges f = []).
Proof. intros H Hf. by destruct (bag_range _ _ _ _ _ _ _ _ H f Hf) as (_ & _ & H3). Qed.
Example C87_example : match export_bag sr_ops env_s run_1 None None "" with
  | Ok (_, [f]) => bf_ranges f = [(-5, -30); (1, 1)]%Q /\ match rf_bands (bf_raster f) with b :: _ => set_values 1000000 b = [-30; -10; -7; -20; -5]%Q | [] => False end
  | _ => False
  end.
Proof. vm_compute. split; reflexivity. Qed.

Print Assumptions C79_sr.
Print Assumptions C79_vr.
Print Assumptions C79_points.
Print Assumptions C79_points_vr.
Print Assumptions C79_backscatter.
Print Assumptions C80_sr.
Print Assumptions C80_vr.
Print Assumptions C81_sr.
Print Assumptions C81_vr.
Print Assumptions C82_refuted.
Print Assumptions C82_sr_partial.
Print Assumptions C82_vr_partial.
Print Assumptions C83_refuted.
Print Assumptions C83_lists_partial.
Print Assumptions C83_number_partial.
Print Assumptions C84_refuted.
Print Assumptions C84_partial.
Print Assumptions C84_rejected.
Print Assumptions C85_refuted.
Print Assumptions C85_sr_partial.
Print Assumptions C85_vr_partial.
Print Assumptions C86_refuted.
Print Assumptions C86_partial.
Print Assumptions C87_elevation_range.
