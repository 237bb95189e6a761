(** Properties of exporting a grid: C42 to C44. *)
From Coq Require Import Lqa.
From Verif Require Import Py Nd Numpy Point Bin Algorithms Tile Time Meta Disk Grid GridRun GridQuery GridOps Export
  Spec TileExec GridExec Samples GridSamples PyFacts NdFacts NumpyFacts AlgFacts BinFacts TileFacts TileGridFacts TileRunFacts TileHistFacts ShoalFacts TilePropFacts TileQueryFacts
  GridBaseFacts GridPlaceFacts GridInvFacts GridRootFacts GridEvolveFacts GridSrFacts GridPropFacts GridHistFacts GridRunFacts GridCleanFacts
  GridUpdateFacts GridDensityFacts GridFlagFacts GridLayerFacts GridReadFacts GridAnswerFacts GridTrimFacts GridMultiFacts GridChunkFacts GridRasterFacts GridExportFacts.
Open Scope Z_scope.

(** ** C42 *)
Theorem C42_chunks {T} (g : grid T) a mx chunks : g_tiles g = Some a -> length (nflat a) = (nrows a * ncols a)%nat ->
  tile_chunk_indices g mx = Ok chunks ->
  NoDup (concat chunks) /\ [] ∉ chunks /\ forall r c, (r, c) ∈ concat chunks <-> exists t, nd_get a r c = Some (Some t).
Proof. intros Ha Hw H. destruct (chunks_once g a Ha Hw mx chunks H) as (H1 & H2 & H3). split; [done|]. split; [done|]. intros r c. apply (H3 (r, c)). Qed.
(** The chunks exist as soon as there are soundings. *)
Theorem C42_sr e size b zarr disk g ct seen ok mx : 0 < size -> sr_history e size b zarr disk g ct seen ok -> ct <> [] ->
  exists a chunks, g_tiles g = Some a /\ tile_chunk_indices g mx = Ok chunks /\ chunks <> [] /\
  NoDup (concat chunks) /\ [] ∉ chunks /\ forall r c, (r, c) ∈ concat chunks <-> exists t, nd_get a r c = Some (Some t).
Proof.
  intros Hs H Hne. apply (sr_inv e size b zarr disk Hs) in H. destruct (root_frame (new_sr_meta 0 0 size b zarr) _ _ _ _ _ Hs H Hne) as (lx & ly & nx & ny & HF). exact (frame_chunks g size ct lx ly nx ny mx Hs HF).
Qed.
Theorem C42_vr e size sub b zarr disk g ct seen ok mx : 0 < size -> 0 < sub -> vr_history e size sub b zarr disk g ct seen ok -> ct <> [] ->
  exists a chunks, g_tiles g = Some a /\ tile_chunk_indices g mx = Ok chunks /\ chunks <> [] /\
  NoDup (concat chunks) /\ [] ∉ chunks /\ forall r c, (r, c) ∈ concat chunks <-> exists t, nd_get a r c = Some (Some t).
Proof.
  intros Hs Hsub H Hne. apply (vr_inv e size sub b zarr disk Hs Hsub) in H. destruct (root_frame (new_vr_meta 0 0 size sub b zarr) _ _ _ _ _ Hs H Hne) as (lx & ly & nx & ny & HF). exact (frame_chunks g size ct lx ly nx ny mx Hs HF).
Qed.
(** Three tiles in a box of two by three: one tile in each chunk when the dimension is one tile. *)
Example C42_case : tile_chunk_indices sr_2 8 = Ok [[(0, 0)]; [(1, 1)]; [(1, 2)]]%nat /\ tile_chunk_indices sr_2 16 = Ok [[(0, 0); (1, 1)]; [(1, 2)]]%nat.
Proof. by vm_compute. Qed.
Print Assumptions C42_chunks.
Print Assumptions C42_sr.
Print Assumptions C42_vr.

(** ** C43 *)
(** The number of tiles of side [size] that fit in the maximum dimension [mx]; at least one. *)
Definition tiles_fit (size mx : Z) (n : nat) : Prop :=
  (0 < n)%nat /\ (forall m, (0 < m)%nat -> Z.of_nat m * size <= mx -> (m <= n)%nat) /\ (n = 1%nat \/ Z.of_nat n * size <= mx).
(** The full property: every chunk fits in n by n tiles. *)
Definition chunks_fit (chunks : list (list (nat * nat))) (n : nat) : Prop :=
  forall chunk p q, chunk ∈ chunks -> p ∈ chunk -> q ∈ chunk -> (p.1 < q.1 + n)%nat /\ (p.2 < q.2 + n)%nat.
(** Rows always fit. Columns fit when the tiles span at least n rows, or at most n columns. Missing: tiles
    that span fewer than n rows and more than n columns, see the refutation. *)
Theorem C43_partial {T} (g : grid T) a mx chunks n : g_tiles g = Some a -> length (nflat a) = (nrows a * ncols a)%nat -> 0 < m_tile_size (g_meta g) ->
  tile_chunk_indices g mx = Ok chunks -> tiles_fit (m_tile_size (g_meta g)) mx n ->
  (forall chunk p q, chunk ∈ chunks -> p ∈ chunk -> q ∈ chunk -> (p.1 < q.1 + n)%nat) /\
  ((exists r c t r' c' t', nd_get a r c = Some (Some t) /\ nd_get a r' c' = Some (Some t') /\ (r + n <= r' + 1)%nat) \/
   (forall r c t r' c' t', nd_get a r c = Some (Some t) -> nd_get a r' c' = Some (Some t') -> (c < c' + n)%nat) ->
   chunks_fit chunks n).
Proof.
  intros Ha Hw Hs H [F1 [F2 F3]].
  assert (En : chunk_tiles g mx = n).
  { unfold chunk_tiles, floor_div. destruct F3 as [->|F3].
    - assert (mx / m_tile_size (g_meta g) <= 1); [|lia]. destruct (Z.le_gt_cases (mx / m_tile_size (g_meta g)) 1) as [|Hgt]; [done|].
      specialize (F2 2%nat ltac:(lia)). pose proof (Z.mul_div_le mx (m_tile_size (g_meta g)) Hs). nia.
    - assert (H1 : Z.of_nat n <= mx / m_tile_size (g_meta g)) by (apply Z.div_le_lower_bound; lia).
      specialize (F2 (Z.to_nat (mx / m_tile_size (g_meta g)))). pose proof (Z.mul_div_le mx (m_tile_size (g_meta g)) Hs). rewrite Z2Nat.id in F2 by lia. specialize (F2 ltac:(lia) ltac:(nia)). lia. }
  split.
  - intros chunk p q Hc Hp Hq. destruct (chunk_box g a Ha Hw mx chunks chunk H Hc) as (_ & _ & b & Hb & B1 & _). rewrite En in B1.
    apply Hb in Hp as [_ Hp], Hq as [_ Hq]. unfold in_block in *. lia.
  - intros Hor chunk p q Hc Hp Hq. destruct (chunk_box g a Ha Hw mx chunks chunk H Hc) as (_ & _ & b & Hb & B1 & B2). rewrite En in B1, B2.
    apply Hb in Hp as [_ Hp], Hq as [_ Hq]. unfold in_block in *. split; [lia|].
    assert (b.2.2 <= n)%nat; [|lia]. apply B2. destruct Hor as [(r & c & t & r' & c' & t' & E1 & E2 & E3)|Hor].
    + left. exists (r, c), (r', c'). split; [by exists t|]. split; [by exists t'|]. done.
    + right. intros [r c] [r' c'] [t Et] [t' Et']. by eapply Hor.
Qed.
(** Three tiles side by side, two tiles allowed. *)
Definition row_of_three := sr_add (create_sr 8 false false true) [Point 1 1 10 1 1; Point 9 1 10 1 1; Point 17 1 10 1 1] "one".
Theorem C43_refuted : exists e size (g : sr_grid) ct seen ok mx chunks n,
  sr_history e size false false true g ct seen ok /\ tile_chunk_indices g mx = Ok chunks /\ tiles_fit size mx n /\ ~ chunks_fit chunks n.
Proof.
  exists env_s, 8, row_of_three, [("one", [Point 1 1 10 1 1; Point 9 1 10 1 1; Point 17 1 10 1 1])], [Point 1 1 10 1 1; Point 9 1 10 1 1; Point 17 1 10 1 1], true, 16, [[(0, 0); (0, 1); (0, 2)]]%nat, 2%nat.
  split; [apply (GH_add _ _ _ (create_sr 8 false false true) [] [] true _ (args_of "one")); [apply GH_new|by vm_compute]|]. split; [by vm_compute|]. split.
  - split; [lia|]. split; [lia|]. right. lia.
  - intros H. destruct (H [(0, 0); (0, 1); (0, 2)]%nat (0, 2)%nat (0, 0)%nat) as [_ H2]; [left|right; right; left|left|]. cbn in H2. lia.
Qed.
(** Two rows of two tiles, two tiles allowed. *)
Example C43_case : tile_chunk_indices sr_2 16 = Ok [[(0, 0); (1, 1)]; [(1, 2)]]%nat /\ tiles_fit 8 16 2 /\ m_tile_size (g_meta sr_2) = 8 /\
  exists a, g_tiles sr_2 = Some a /\ (exists t, nd_get a 0 0 = Some (Some t)) /\ (exists t, nd_get a 1 1 = Some (Some t)).
Proof. split; [by vm_compute|]. split; [split; [lia|]; split; [lia|]; right; lia|]. split; [by vm_compute|]. eexists. split; [by vm_compute|]. split; eexists; by vm_compute. Qed.
Print Assumptions C43_partial.
Print Assumptions C43_refuted.

(** ** C44 *)
(** Single resolution grids of which every tile was gridded at [r]. Missing: tiles without the
    resolution, see the refutations. *)
Theorem C44_sr_partial e size b zarr disk g ct seen ok r ls nodata up mx :
  0 < size -> sr_history e size b zarr disk g ct seen ok -> ct <> [] -> 0 < r -> size mod r = 0 ->
  Forall (fun l => l ∈ float_layers) ls -> ls <> [] ->
  (forall k t, tile_at g k = Some t -> r ∈ dkeys (t_cells t)) ->
  (forall l, l ∈ ls -> exists o, g_get_layers_by_name sr_ops e g [l] (Some r) nodata up = Ok (g, o)) ->
  exists out, g_get_chunks_of_tiles sr_ops e g r ls nodata up mx true = Ok (g, out) /\ rasters_show sr_ops e g r ls nodata up out.
Proof. apply sr_rasters. Qed.
(** Variable resolution grids, also when only some of the tiles have the resolution. *)
Theorem C44_vr e size sub b zarr disk g ct seen ok r ls nodata up mx :
  0 < size -> 0 < sub -> vr_history e size sub b zarr disk g ct seen ok -> ct <> [] -> 0 < r -> size mod r = 0 ->
  Forall (fun l => l ∈ float_layers) ls -> ls <> [] ->
  (forall l, l ∈ ls -> exists o, g_get_layers_by_name vr_ops e g [l] (Some r) nodata up = Ok (g, o)) ->
  exists out, g_get_chunks_of_tiles vr_ops e g r ls nodata up mx true = Ok (g, out) /\ rasters_show vr_ops e g r ls nodata up out.
Proof. apply vr_rasters. Qed.
(** From soundings to pixels: a pixel of the depth raster of a gridded grid is computed from the soundings in
    its square. *)
Theorem C44_points e alg r size zarr disk g ct a dask nodata up mx :
  alg = "mean" \/ alg = "shoalest" -> 0 < size -> sr_clean e known_args size false zarr disk g ct -> ct <> [] ->
  only_args alg r a -> (ga_regrid a = "update" -> ga_clear a = true) -> exn_of (g_grid sr_ops e g a dask) = None ->
  0 < r -> size mod r = 0 ->
  let g' := st_of (g_grid sr_ops e g a dask) in
  exists out, g_get_chunks_of_tiles sr_ops e g' r ["depth"] nodata up mx true = Ok (g', out) /\
  forall geo data, (geo, data) ∈ out -> exists q d band, geo = Some q /\ data = [("depth", d)] /\ gdal_bands [d] = Ok [band] /\
  forall k c v, nd_get band k c = Some v ->
    let here := map pz (filter (fun p => in_pixel q k c (px p) (py p)) (all_points ct)) in
    exists w, (if bool_decide (alg = "mean") then mean_cell here w else least_cell here w) /\
      exported_as (xorb (m_positive_up (g_meta g')) up) nodata w v.
Proof. apply depth_rasters. Qed.

(** A grid of which one tile was gridded at 2 m and, after a new sounding, the other at 1 m. *)
Definition two_kinds (first : gargs) (second : gargs) : sr_grid :=
  sr_run env_s (sr_add (sr_run env_s (sr_add (create_sr 8 false false true) [Point 1 1 10 1 1] "one") first) [Point 9 1 20 1 1] "two") second.
Definition ct_kinds : content := [("one", [Point 1 1 10 1 1]); ("two", [Point 9 1 20 1 1])].
Definition mean_8_up := grid_args "mean" 8 false "update".
Lemma two_kinds_clean first second : known_args first -> known_args second ->
  exn_of (g_add_points sr_ops (create_sr 8 false false true) (GoodData [Point 1 1 10 1 1]) (args_of "one")) = None ->
  exn_of (g_grid sr_ops env_s (sr_add (create_sr 8 false false true) [Point 1 1 10 1 1] "one") first None) = None ->
  exn_of (g_add_points sr_ops (sr_run env_s (sr_add (create_sr 8 false false true) [Point 1 1 10 1 1] "one") first) (GoodData [Point 9 1 20 1 1]) (args_of "two")) = None ->
  exn_of (g_grid sr_ops env_s (sr_add (sr_run env_s (sr_add (create_sr 8 false false true) [Point 1 1 10 1 1] "one") first) [Point 9 1 20 1 1] "two") second None) = None ->
  sr_clean env_s known_args 8 false false true (two_kinds first second) ct_kinds.
Proof.
  intros K1 K2 E1 E2 E3 E4. apply (CH_grid _ _ _ _ _ _ second None); [|done|done].
  apply (CH_add _ _ _ _ _ [("one", [Point 1 1 10 1 1])] [Point 9 1 20 1 1] (args_of "two")); [|done].
  apply (CH_grid _ _ _ _ _ _ first None); [|done|done].
  apply (CH_add _ _ _ _ _ [] [Point 1 1 10 1 1] (args_of "one")); [apply CH_new|done].
Qed.
(** The first tile of the chunk does not have the resolution: the raster is yielded 2 m too far to the east. *)
Theorem C44_misplaced_refuted : exists e size (g : sr_grid) ct r out,
  sr_clean e known_args size false false true g ct /\ g_get_chunks_of_tiles sr_ops e g r ["depth"] None false None true = Ok (g, out) /\
  exists o, g_get_layers_by_name sr_ops e g ["depth"] (Some r) None false = Ok (g, o) /\ ~ rasters_show sr_ops e g r ["depth"] None false out.
Proof.
  set (d := Nd 4 2 [None; None; None; None; None; Some 20%Q; None; None]).
  exists env_s, 8, (two_kinds mean_8 mean_4_up), ct_kinds, 4, [(Some (8, 4, 8), [("depth", d)])].
  split; [apply two_kinds_clean; [by apply (bool_decide_unpack _)..|by vm_compute|by vm_compute|by vm_compute|by vm_compute]|].
  split; [by vm_compute|]. set (a := Nd 4 4 (None :: None :: Some 20%Q :: replicate 13 None)).
  exists (Some [a]). split; [by vm_compute|].
  intros (x & Hx & H & _). assert (E : x = Ext 0 0 16 16) by (vm_compute in Hx; by injection Hx as <-). subst x.
  destruct (H (Some (8, 4, 8)) [("depth", d)]) as (_ & q & [= <-] & _ & Hb); [left|].
  destruct (Hb "depth" d (Some [a])) as (band & [= <-] & _ & _ & _ & Hv); [left|by vm_compute|].
  destruct (Hv 1%nat 2%nat (Some 20%Q)) as (a' & R & C & [= <-] & Hg & Hi); [by vm_compute|].
  assert (E : R = 0%nat /\ C = 2%nat).
  { clear - Hg. destruct R as [|[|[|[|R]]]]; [..|by vm_compute in Hg]; (destruct C as [|[|[|[|C]]]]; vm_compute in Hg; [..|discriminate]); try discriminate Hg; by split. }
  destruct E as [-> ->]. specialize (Hi 16 0). unfold in_pixel, in_cell in Hi. cbn in Hi. lia.
Qed.
(** A later tile does not have the resolution: TypeError. *)
Theorem C44_raises_refuted : exists e size (g : sr_grid) ct r,
  sr_clean e known_args size false false true g ct /\ r ∈ m_rezs (g_meta g) /\ g_get_chunks_of_tiles sr_ops e g r ["depth"] None false None true = Raise TypeError.
Proof.
  exists env_s, 8, (two_kinds mean_4 mean_8_up), ct_kinds, 4.
  split; [apply two_kinds_clean; [by apply (bool_decide_unpack _)..|by vm_compute|by vm_compute|by vm_compute|by vm_compute]|].
  split; [apply (bool_decide_unpack _); by vm_compute|by vm_compute].
Qed.
Definition all_rez (g : sr_grid) (r : Z) : bool := forallb (fun t => bool_decide (r ∈ dkeys (t_cells t))) (live_tiles g).
(** The three tiles of [run_1] with the default chunk dimension and in chunks of one tile. *)
Example C44_sr_case : sr_clean env_s known_args 8 false false true run_1 ct_2 /\ all_rez run_1 4 = true /\
  (exists o, g_get_layers_by_name sr_ops env_s run_1 ["depth"] (Some 4) (Some 1000000%Q) true = Ok (run_1, Some o)) /\
  exists out, g_get_chunks_of_tiles sr_ops env_s run_1 4 ["depth"] (Some 1000000%Q) true (Some 8) true = Ok (run_1, out) /\ length out = 3%nat.
Proof.
  split; [apply (CH_grid _ _ _ _ sr_2 ct_2 mean_4 None); [apply sr_2_clean|by apply (bool_decide_unpack _)|by vm_compute]|]. split; [by vm_compute|]. split.
  - exists (match g_get_layers_by_name sr_ops env_s run_1 ["depth"] (Some 4) (Some 1000000%Q) true with Ok (_, Some o) => o | _ => [] end). by vm_compute.
  - exists (match g_get_chunks_of_tiles sr_ops env_s run_1 4 ["depth"] (Some 1000000%Q) true (Some 8) true with Ok (_, out) => out | _ => [] end). split; by vm_compute.
Qed.
Definition vr_even := vr_add (vr_add (create_vr 16 8 false false true) pts_one "one") pts_two "two".
Definition vr_even_run := vr_run env_s vr_even mean_4.
Example C44_vr_case : vr_clean env_s known_args 16 8 false false true vr_even_run ct_2 /\
  (exists o, g_get_layers_by_name vr_ops env_s vr_even_run ["depth"] (Some 4) (Some 1000000%Q) true = Ok (vr_even_run, Some o)) /\
  exists out, g_get_chunks_of_tiles vr_ops env_s vr_even_run 4 ["depth"] (Some 1000000%Q) true (Some 16) true = Ok (vr_even_run, out) /\ length out = 2%nat.
Proof.
  split.
  - apply (CH_grid _ _ _ _ vr_even ct_2 mean_4 None); [|by apply (bool_decide_unpack _)|by vm_compute].
    apply (CH_add _ _ _ _ (vr_add (create_vr 16 8 false false true) pts_one "one") [("one", pts_one)] pts_two (args_of "two")); [|by vm_compute].
    apply (CH_add _ _ _ _ (create_vr 16 8 false false true) [] pts_one (args_of "one")); [apply CH_new|by vm_compute].
  - split.
    + exists (match g_get_layers_by_name vr_ops env_s vr_even_run ["depth"] (Some 4) (Some 1000000%Q) true with Ok (_, Some o) => o | _ => [] end). by vm_compute.
    + exists (match g_get_chunks_of_tiles vr_ops env_s vr_even_run 4 ["depth"] (Some 1000000%Q) true (Some 16) true with Ok (_, out) => out | _ => [] end). split; by vm_compute.
Qed.
(** [sr_2] gridded with [mean_4] meets the hypotheses of [C44_points]. *)
Example C44_points_case : only_args "mean" 4 mean_4 /\ ct_2 <> [] /\ exn_of (g_grid sr_ops env_s sr_2 mean_4 None) = None /\ 8 mod 4 = 0.
Proof. vm_compute. by repeat split. Qed.
Print Assumptions C44_sr_partial.
Print Assumptions C44_vr.
Print Assumptions C44_points.
Print Assumptions C44_misplaced_refuted.
Print Assumptions C44_raises_refuted.
