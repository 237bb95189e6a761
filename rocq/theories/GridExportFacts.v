(** The rasters exported from grids with a history. *)
From Verif Require Import Py Nd Numpy Point Bin Algorithms Tile Time Meta Disk Grid GridRun GridQuery GridOps Export Spec TileExec GridExec PyFacts NdFacts NumpyFacts AlgFacts BinFacts
  MiscFacts TileFacts TileGridFacts TileSpecFacts TileRunFacts TileHistFacts ShoalFacts TilePropFacts TileQueryFacts GridBaseFacts GridPlaceFacts GridInvFacts GridRootFacts
  GridEvolveFacts GridSrFacts GridPropFacts GridHistFacts GridRunFacts GridCleanFacts GridUpdateFacts GridDensityFacts GridFlagFacts GridLayerFacts GridReadFacts GridAnswerFacts GridTrimFacts
  GridMultiFacts GridChunkFacts GridRasterFacts.
Open Scope Z_scope.

Lemma dget_self {A} (f : string -> A) (ls : list string) l : l ∈ ls -> dget (map (fun l => (l, f l)) ls) l = Some (f l).
Proof.
  induction ls as [|l0 ls IH]; intros Hl; [by apply not_elem_of_nil in Hl|]. cbn. destruct (decide (l = l0)) as [->|D]; [done|].
  apply IH. by apply elem_of_cons in Hl as [?|?].
Qed.
Section export.
  Context {T : Type} (O : tile_ops T) (e : env) (g : grid T) (r : Z) (ls : list string) (nodata : cell) (up : bool) (nx ny n : nat) (lx ly : Z).
  Notation size := (m_tile_size (g_meta g)).
  Notation u := (eff_up (g_meta g) up).
  Context (HB : boxed g r nx ny n) (Hg : g_no_grid O g = Ok false).
  Context (Hq : forall l, l ∈ ls -> exists o, g_get_layers_by_name O e g [l] (Some r) nodata up = Ok (g, o)).

  Lemma queries_get k t l : tile_at g k = Some t -> l ∈ ls ->
    exists o, op_get_layer O e t l r nodata u = Ok (t, o) /\ forall a, o = Some a -> nrows a = n /\ ncols a = n.
  Proof using All.
    intros Ht Hl. destruct (Hq l Hl) as [o Ho]. destruct (layers_query O e g r [l] nodata up nx ny n HB Hg) as [Q1 Q2]. cbv zeta in *.
    pose proof (bx_tiles _ _ _ _ _ HB) as (ta & Ta & Tr & Tc & Tl).
    assert (Hk : (k < ny * nx)%nat). { apply tile_at_size in Ht. unfold tiles_size in Ht. rewrite Ta, Tl in Ht. done. }
    destruct (proj2 Q1 (ex_intro _ _ Ho) k Hk) as [Hrd Hsh]. destruct (Q2 _ Ho) as (s & [_ _ _ _ _ _ _ M8 _ _] & E).
    injection E as E _. specialize (M8 k). rewrite <- E, bool_decide_eq_true_2 in M8 by done. rewrite Ht in M8. unfold after in M8. rewrite Ht in M8.
    unfold reads in Hrd. rewrite Ht in Hrd. destruct Hrd as [td Htd]. rewrite Htd in M8. injection M8 as Mt.
    unfold shaped, found, tile_found in Hsh. rewrite Ht, Htd in Hsh.
    unfold read_layers in Htd. cbn [foldl rbind fst snd] in Htd. apply rbind_Ok in Htd as ([t' o'] & E1 & [= <-]). cbn [fst snd] in *. subst t'.
    exists o'. split; [done|]. intros a ->. apply Hsh. left.
  Qed.

  Context (Hgeo : forall k t, tile_at g k = Some t -> op_geo O t r = Some (lx + Z.of_nat (k mod nx) * size, r, ly + Z.of_nat (k / nx + 1) * size)).
  Context (x : ext) (Hx : m_ext (g_meta g) = Some x) (Hx0 : x0 x = lx) (Hy0 : y0 x = ly).
  Context (Hfl : Forall (fun l => l ∈ float_layers) ls).
  Context (Hlive : exists k t, tile_at g k = Some t).

  Lemma floats_fill ls' : Forall (fun l => l ∈ float_layers) ls' -> fills_ok nodata ls' nodata.
  Proof using. induction 1 as [|l ls' Hl _ IH]; cbn; [done|]. by rewrite !float_nodata. Qed.

  Lemma pixel_cell r0 c0 h k c px py : (k < h * n)%nat ->
    in_pixel (lx + Z.of_nat c0 * size, r, ly + Z.of_nat (r0 + h) * size) k c px py <->
    in_cell lx ly r (r0 * n + (h * n - 1 - k)) (c0 * n + c) px py.
  Proof using HB Hgeo.
    intros Hk. pose proof (bx_size _ _ _ _ _ HB) as Hs. unfold in_pixel, in_cell. rewrite Hs.
    assert (E1 : Z.of_nat (c0 * n + c) = Z.of_nat c0 * Z.of_nat n + Z.of_nat c) by lia.
    assert (E2 : Z.of_nat (r0 * n + (h * n - 1 - k)) = Z.of_nat r0 * Z.of_nat n + Z.of_nat h * Z.of_nat n - 1 - Z.of_nat k) by lia.
    rewrite E1, E2, Nat2Z.inj_add. clear.
    replace (lx + (Z.of_nat c0 * Z.of_nat n + Z.of_nat c) * r) with (lx + Z.of_nat c0 * (Z.of_nat n * r) + Z.of_nat c * r) by lia.
    replace (lx + (Z.of_nat c0 * Z.of_nat n + Z.of_nat c + 1) * r) with (lx + Z.of_nat c0 * (Z.of_nat n * r) + (Z.of_nat c + 1) * r) by lia.
    replace (ly + (Z.of_nat r0 * Z.of_nat n + Z.of_nat h * Z.of_nat n - 1 - Z.of_nat k) * r) with (ly + (Z.of_nat r0 + Z.of_nat h) * (Z.of_nat n * r) - (Z.of_nat k + 1) * r) by lia.
    replace (ly + (Z.of_nat r0 * Z.of_nat n + Z.of_nat h * Z.of_nat n - 1 - Z.of_nat k + 1) * r) with (ly + (Z.of_nat r0 + Z.of_nat h) * (Z.of_nat n * r) - Z.of_nat k * r) by lia.
    done.
  Qed.

  Lemma show_all mx : exists out, g_get_chunks_of_tiles O e g r ls nodata up mx true = Ok (g, out) /\ rasters_show O e g r ls nodata up out.
  Proof using All.
    pose proof (bx_n _ _ _ _ _ HB) as Hn. pose proof (bx_rez _ _ _ _ _ HB) as Hr.
    destruct (all_chunks O e g r ls nodata up nx ny n lx ly HB queries_get Hgeo mx (floats_fill ls Hfl) Hlive) as (out & Hout & O1 & O2).
    exists out. split; [done|]. exists x. split; [done|].
    assert (Hpx : forall l o, l ∈ ls -> g_get_layers_by_name O e g [l] (Some r) nodata up = Ok (g, o) ->
      match o with Some arrs => arrs = [nd_init (ny * n) (nx * n) (pixel O e g r nodata up nx n l)] | None => forall k t, tile_at g k = Some t -> got O e g r nodata up t l = None end).
    { intros l o Hl Ho. destruct (whole_layer O e g r ls nodata up nx ny n lx ly HB queries_get Hgeo l Hl Hg) as (o' & Ho' & H). rewrite Ho in Ho'. by injection Ho' as <-. }
    assert (Hin : forall c0 w c : nat, (c0 + w <= nx)%nat -> (c < w * n)%nat -> (c0 * n + c < nx * n)%nat) by (intros; nia).
    split.
    - intros geo data Hi. destruct (O1 _ Hi) as (il & [(r0 & c0 & h & w & Hh & Hw & Hc & Hrow & E1 & E2 & E3 & _)]). cbn [fst snd] in *. subst geo data.
      split; [unfold dkeys; rewrite <- list_fmap_compose; apply list_fmap_id|]. eexists. split; [reflexivity|]. split; [done|].
      intros l d o (l' & [= -> ->] & Hl)%elem_of_list_fmap Ho. pose proof (Hpx l' o Hl Ho) as P. eexists. split; [cbn [gdal_bands map]; rewrite (E3 l' Hl); reflexivity|].
      split; [cbn; nia|]. split; [cbn; nia|]. split; [apply nd_init_wf|]. intros k c v Hv.
      pose proof (nd_get_Some_lt _ _ _ _ Hv) as [B1 B2]. cbn [nrows ncols band nd_init] in B1, B2. unfold band in Hv. rewrite nd_get_init in Hv by done. injection Hv as <-.
      unfold layer_value.
      assert (HC : (c0 * n + c < nx * n)%nat) by exact (Hin c0 w c Hc B2).
      destruct o as [arrs|].
      + rewrite P. exists (nd_init (ny * n) (nx * n) (pixel O e g r nodata up nx n l')), (r0 * n + (h * n - 1 - k))%nat, (c0 * n + c)%nat. split; [done|].
        split; [|intros px py; rewrite Hx0, Hy0; exact (pixel_cell r0 c0 h k c px py B1)]. rewrite nd_get_init; [done| |done].
        nia.
      + unfold pixel. assert (Hnd : layer_nodata l' nodata = nodata) by (apply float_nodata; by apply (proj1 (Forall_forall _ _) Hfl)).
        destruct (tile_at g _) as [t|] eqn:Ht; [|done]. by rewrite (P _ _ Ht).
    - intros l o S v Hl Ho Hv Hne. pose proof (Hpx l o Hl Ho) as P. destruct o as [arrs|]; [|done]. destruct Hv as (a & R & C & -> & Hv & Hc). injection P as ->.
      pose proof (nd_get_Some_lt _ _ _ _ Hv) as [B1 B2]. cbn [nrows ncols nd_init] in B1, B2. rewrite nd_get_init in Hv by done. injection Hv as <-.
      assert (Hnd : layer_nodata l nodata = nodata) by (apply float_nodata; by apply (proj1 (Forall_forall _ _) Hfl)).
      assert (HC : (C / n < nx)%nat) by (apply Nat.div_lt_upper_bound; lia).
      unfold pixel in Hne at 1. destruct (tile_at g (R / n * nx + C / n)) as [t|] eqn:Ht; [|congruence].
      destruct (O2 (R / n, C / n)%nat t l HC Ht Hl) as (il & item & I1 & Y & I3); [intros E; rewrite E in Hne; congruence|].
      destruct Y as [(r0 & c0 & h & w & Hh & Hw & Hcw & _ & E1 & E2 & E3 & E4 & _)]. destruct (E4 _ I3) as [K1 K2]. cbn [fst snd] in K1, K2. destruct item as [geo data]. cbn [fst snd] in E1, E2. subst geo data.
      pose proof (Nat.div_mod R n ltac:(lia)) as DR. pose proof (Nat.mod_upper_bound R n ltac:(lia)) as MR.
      pose proof (Nat.div_mod C n ltac:(lia)) as DC. pose proof (Nat.mod_upper_bound C n ltac:(lia)) as MC.
      assert (FR : exists k, (k < h * n)%nat /\ R = (r0 * n + (h * n - 1 - k))%nat) by (exists (r0 * n + h * n - 1 - R)%nat; nia).
      assert (FC : exists c, (c < w * n)%nat /\ C = (c0 * n + c)%nat) by (exists (C - c0 * n)%nat; nia).
      destruct FR as (k & Hk & HR), FC as (c & Hcc & HCC).
      eexists _, _, _, _, k, c. split; [exact I1|]. split.
      { exact (dget_self _ ls l Hl). }
      split; [cbn [gdal_bands map]; rewrite (E3 l Hl); reflexivity|]. split.
      + intros px py. rewrite (Hc px py), Hx0, Hy0, (pixel_cell r0 c0 h k c px py Hk). by rewrite <- HR, <- HCC.
      + unfold band. rewrite nd_get_init by done. by rewrite <- HR, <- HCC.
  Qed.
End export.

(** ** Grids with a history *)
Lemma root_slot {T} (m0 : gmeta) (rep : T -> Z -> Z -> content -> Prop) g ct seen ok : 0 < m_tile_size m0 -> root_inv m0 rep g ct seen ok -> ct <> [] ->
  exists lx ly nx ny, frame g (m_tile_size m0) ct lx ly nx ny /\
  forall k t, tile_at g k = Some t -> exists ct', rep t (lx + Z.of_nat (k mod nx) * m_tile_size m0) (ly + Z.of_nat (k / nx) * m_tile_size m0) ct'.
Proof.
  intros Hs HI Hne. destruct HI as [HB [(_ & ? & _)|(N & lx & ly & nx & ny & a & HP & HF & HR)]]; [done|].
  assert (HI : root_inv m0 rep g ct seen ok) by (split; [done|]; right; split; [done|]; by exists lx, ly, nx, ny, a).
  destruct (root_frame m0 rep g ct seen ok Hs HI Hne) as (lx' & ly' & nx' & ny' & HFr). exists lx', ly', nx', ny'. split; [done|].
  intros k t Ht. pose proof (fr_slot _ _ _ _ _ _ _ HFr k (fr_tile _ _ _ _ _ _ _ HFr _ _ Ht)) as Ho.
  pose proof (placed_loc _ _ _ _ _ _ _ _ _ _ _ _ HP Ho) as H. rewrite Ht in H. destruct H as [_ H]. eauto.
Qed.

Lemma sr_rasters e size b zarr disk g ct seen ok r ls nodata up mx :
  0 < size -> sr_history e size b zarr disk g ct seen ok -> ct <> [] -> 0 < r -> size mod r = 0 ->
  Forall (fun l => l ∈ float_layers) ls -> ls <> [] ->
  (forall k t, tile_at g k = Some t -> r ∈ dkeys (t_cells t)) ->
  (forall l, l ∈ ls -> exists o, g_get_layers_by_name sr_ops e g [l] (Some r) nodata up = Ok (g, o)) ->
  exists out, g_get_chunks_of_tiles sr_ops e g r ls nodata up mx true = Ok (g, out) /\ rasters_show sr_ops e g r ls nodata up out.
Proof.
  intros Hs H Hne Hr Hm Hfl Hls Hrez Hq. apply (sr_inv e size b zarr disk Hs) in H.
  destruct (root_slot (new_sr_meta 0 0 size b zarr) _ _ _ _ _ Hs H Hne) as (lx & ly & nx & ny & HF & HS). cbn [m_tile_size new_sr_meta new_meta] in HF, HS.
  assert (Hn : size = Z.of_nat (Z.to_nat (size / r)) * r). { rewrite Z2Nat.id by (apply Z.div_pos; lia). pose proof (Z.div_mod size r). lia. }
  set (n := Z.to_nat (size / r)) in *. assert (Hn0 : (0 < n)%nat) by (destruct n; lia).
  assert (Hg : g_no_grid sr_ops g = Ok false). { destruct ls as [|l ls']; [done|]. destruct (Hq l) as [o Ho]; [left|]. by eapply query_grid. }
  eapply (show_all sr_ops e g r ls nodata up nx ny n lx ly (fr_box _ _ _ _ _ _ _ HF r n Hr Hn0 Hn) Hg Hq); [|apply (fr_ext _ _ _ _ _ _ _ HF)|done|done|done|apply (fr_live _ _ _ _ _ _ _ HF)].
  intros k t Ht. rewrite (fr_size _ _ _ _ _ _ _ HF). destruct (HS k t Ht) as (ct' & (A1 & A2 & A3 & _) & _). cbn. unfold t_get_geotransform, dmem.
  rewrite bool_decide_eq_true_2 by (by eapply Hrez). unfold t_max_y. rewrite A1, A2, A3. do 2 f_equal. lia.
Qed.
Lemma vr_rasters e size sub b zarr disk g ct seen ok r ls nodata up mx :
  0 < size -> 0 < sub -> vr_history e size sub b zarr disk g ct seen ok -> ct <> [] -> 0 < r -> size mod r = 0 ->
  Forall (fun l => l ∈ float_layers) ls -> ls <> [] ->
  (forall l, l ∈ ls -> exists o, g_get_layers_by_name vr_ops e g [l] (Some r) nodata up = Ok (g, o)) ->
  exists out, g_get_chunks_of_tiles vr_ops e g r ls nodata up mx true = Ok (g, out) /\ rasters_show vr_ops e g r ls nodata up out.
Proof.
  intros Hs Hsub H Hne Hr Hm Hfl Hls Hq. apply (vr_inv e size sub b zarr disk Hs Hsub) in H.
  destruct (root_slot (new_vr_meta 0 0 size sub b zarr) _ _ _ _ _ Hs H Hne) as (lx & ly & nx & ny & HF & HS). cbn [m_tile_size new_vr_meta new_meta] in HF, HS.
  assert (Hn : size = Z.of_nat (Z.to_nat (size / r)) * r). { rewrite Z2Nat.id by (apply Z.div_pos; lia). pose proof (Z.div_mod size r). lia. }
  set (n := Z.to_nat (size / r)) in *. assert (Hn0 : (0 < n)%nat) by (destruct n; lia).
  assert (Hg : g_no_grid vr_ops g = Ok false). { destruct ls as [|l ls']; [done|]. destruct (Hq l) as [o Ho]; [left|]. by eapply query_grid. }
  eapply (show_all vr_ops e g r ls nodata up nx ny n lx ly (fr_box _ _ _ _ _ _ _ HF r n Hr Hn0 Hn) Hg Hq); [|apply (fr_ext _ _ _ _ _ _ _ HF)|done|done|done|apply (fr_live _ _ _ _ _ _ _ HF)].
  intros k t Ht. rewrite (fr_size _ _ _ _ _ _ _ HF). destruct (HS k t Ht) as (ct' & HC & _). cbn. rewrite (cb_ext _ _ _ _ _ _ HC). cbn [x0 y1]. do 2 f_equal. lia.
Qed.
Lemma frame_chunks {T} (g : grid T) size ct lx ly nx ny mx : 0 < size -> frame g size ct lx ly nx ny ->
  exists a chunks, g_tiles g = Some a /\ tile_chunk_indices g mx = Ok chunks /\ chunks <> [] /\
  NoDup (concat chunks) /\ [] ∉ chunks /\ forall r c, (r, c) ∈ concat chunks <-> exists t, nd_get a r c = Some (Some t).
Proof.
  intros Hs HF. pose proof (fr_box _ _ _ _ _ _ _ HF size 1 Hs (Nat.lt_0_1) ltac:(lia)) as HB. pose proof (bx_tiles _ _ _ _ _ HB) as (a & Ta & Tr & Tc & Tl).
  assert (Hw : nd_wf a) by (unfold nd_wf; congruence). destruct (fr_live _ _ _ _ _ _ _ HF) as (k & t & Ht).
  assert (Hk : live a (k / nx, k mod nx)%nat).
  { exists t. pose proof (fr_tile _ _ _ _ _ _ _ HF _ _ Ht) as Hk. unfold nd_get. cbn [fst snd]. destruct (flat_div_lt _ _ _ Hk). rewrite Tr, Tc, !bool_decide_eq_true_2 by done. cbn [andb].
    rewrite <- flat_split by lia. unfold tile_at in Ht. rewrite Ta in Ht. destruct (nflat a !! k) as [o|]; [|done]. cbn in Ht. by subst o. }
  destruct (chunks_exist g a Ta Hw mx _ Hk) as [chunks Hch]. exists a, chunks. split; [done|]. split; [done|].
  destruct (chunks_once g a Ta Hw mx chunks Hch) as (H1 & H2 & H3). split; [|split; [done|]; split; [done|]; intros r c; apply (H3 (r, c))].
  intros ->. apply H3, elem_of_nil in Hk. done.
Qed.

Lemma clean_history_of {T} (O : tile_ops T) e (P : gargs -> Prop) g0 g ct : clean_history O e P g0 g ct -> exists seen ok, grid_history O e g0 g ct seen ok.
Proof.
  induction 1 as [|g ct d a H IH Hx|g ct inp a H IH Hx|g ct c H IH Hx|g ct a dask H IH Ha Hx|g ct layers rez nodata up g' o H IH Hq]; [exists [], true; constructor|destruct IH as (seen & ok & IH)..].
  - eexists _, _. by eapply GH_add.
  - eexists _, _. by eapply GH_add_failed.
  - destruct (decide (drop_c ct c = [])) as [E|E].
    + rewrite E. eexists _, _. by eapply GH_remove_last.
    + eexists _, _. by eapply GH_remove.
  - eexists _, _. by eapply GH_grid.
  - eexists _, _. by eapply GH_query.
Qed.
(** From soundings to pixels. *)
Lemma depth_rasters e alg r size zarr disk g ct a dask nodata up mx :
  alg = "mean" \/ alg = "shoalest" -> 0 < size -> sr_clean e known_args size false zarr disk g ct -> ct <> [] ->
  only_args alg r a -> (ga_regrid a = "update" -> ga_clear a = true) -> exn_of (g_grid sr_ops e g a dask) = None ->
  0 < r -> size mod r = 0 ->
  let g' := st_of (g_grid sr_ops e g a dask) in
  exists out, g_get_chunks_of_tiles sr_ops e g' r ["depth"] nodata up mx true = Ok (g', out) /\
  forall geo data, (geo, data) ∈ out -> exists q d band, geo = Some q /\ data = [("depth", d)] /\ gdal_bands [d] = Ok [band] /\
  forall k c v, nd_get band k c = Some v ->
    let here := map pz (filter (fun p => in_pixel q k c (px p) (py p)) (all_points ct)) in
    exists w, (if bool_decide (alg = "mean") then mean_cell here w else least_cell here w) /\
      exported_as (xorb (m_positive_up (g_meta g')) up) nodata w v.
Proof.
  intros Halg Hs H Hne Ha Hu Hx Hr Hm g'.
  destruct (sr_answers e alg r size false zarr disk g ct a dask Halg Hs H Hne Ha Hu Hx Hr Hm) as [HD _]. cbv iota in HD.
  assert (HR : sr_reflects e alg r size false ct g').
  { pose proof Halg as [sa ->]%simple_cases. destruct Ha as [Ha Hrz]. eapply sr_full_reflects; try done. by apply given_rez. }
  assert (Hk : known_args a). { destruct Ha as [Ha _]. unfold known_args. rewrite Ha. destruct Halg as [->| ->]; apply (bool_decide_unpack _); vm_compute; exact I. }
  assert (H' : sr_clean e known_args size false zarr disk g' ct) by (by apply CH_grid). fold g' in HD. clearbody g'.
  set (u0 := m_positive_up (g_meta g')). destruct (HD u0) as [D1 D2]; [left; unfold u0, eff_up; by destruct (m_positive_up (g_meta g'))|].
  assert (HA : exists x arr, m_ext (g_meta g') = Some x /\ g_get_layers_by_name sr_ops e g' ["depth"] (Some r) None u0 = Ok (g', Some [arr]) /\
    forall R C, (R < nrows arr)%nat -> (C < ncols arr)%nat -> exists w, nd_get arr R C = Some w /\
      let here := map pz (points_in_cell (x0 x) (y0 x) r R C (all_points ct)) in if bool_decide (alg = "mean") then mean_cell here w else least_cell here w).
  { case_bool_decide as Eb; [destruct (D1 Eb) as (x & arr & A1 & A2 & _ & _ & _ & A3)|destruct Halg as [?|Eb']; [done|]; destruct (D2 Eb') as (x & arr & A1 & A2 & _ & _ & _ & A3)]; eauto 10. }
  destruct HA as (x & arr & Hext & Hq & Hcell).
  pose (R0 := fun v w : cell => w = match v with None => nodata | Some q => Some (if eff_up (g_meta g') up then Qred (- q) else q) end).
  assert (E0 : eff_up (g_meta g') u0 = false) by (unfold u0, eff_up; by destruct (m_positive_up (g_meta g'))).
  destruct (sr_sim e known_args size false zarr disk g' ct "depth" r None nodata u0 up R0 g' (Some [arr]) Hs (fun _ h => h) H') as (_ & o' & Hq' & Hsame).
  { by apply float_std, (bool_decide_unpack _). }
  { done. }
  { intros v. rewrite E0. unfold R0. destruct v as [q|]; cbn; by destruct (eff_up (g_meta g') up). }
  { done. }
  inversion Hsame as [? arrs Harrs|]; subst. inversion Harrs as [|? arr' ? ? (S1 & S2 & S3) Hnil]; subst. inversion Hnil; subst.
  destruct (clean_history_of _ _ _ _ _ _ H') as (seen & ok & Hh).
  destruct (sr_rasters e size false zarr disk g' ct seen ok r ["depth"] nodata up mx Hs Hh Hne Hr Hm) as (out & Hout & x' & Hx' & Hsh & _).
  { constructor; [by apply (bool_decide_unpack _)|constructor]. }
  { done. }
  { intros k t Ht. apply sr_inv in Hh; [|done].
    destruct (root_slot (new_sr_meta 0 0 size false zarr) _ _ _ _ _ Hs Hh Hne) as (lx & ly & nx & ny & HF & _). cbn in HF.
    pose proof (HR _ _ _ (fr_slot _ _ _ _ _ _ _ HF k (fr_tile _ _ _ _ _ _ _ HF _ _ Ht))) as Q. cbv zeta in Q. rewrite Ht in Q.
    destruct Q as (_ & _ & n' & dp & dn & _ & _ & Hdp & _). unfold layer_of in Hdp. apply dget_is_Some. by destruct (dget (t_cells t) r). }
  { intros l ->%elem_of_list_singleton. eauto. }
  rewrite Hext in Hx'. injection Hx' as <-. exists out. split; [done|]. intros geo data Hin. destruct (Hsh geo data Hin) as (Hkeys & q & -> & _ & Hb).
  destruct data as [|[l d] data]; [done|]. injection Hkeys as -> Hk'. destruct data; [|done].
  destruct (Hb "depth" d (Some [arr']) (elem_of_list_here _ _) Hq') as (band & Hg & _ & _ & _ & Hv). exists q, d, band. split; [done|]. split; [done|]. split; [done|].
  intros k c v Hkc here. destruct (Hv k c v Hkc) as (a0 & R & C & [= <-] & Ha0 & Hiff). pose proof (nd_get_Some_lt _ _ _ _ Ha0) as [B1 B2].
  destruct (Hcell R C) as (w & Hw & HW); [congruence|congruence|]. exists w.
  assert (Hhere : here = map pz (points_in_cell (x0 x) (y0 x) r R C (all_points ct))).
  { unfold here, points_in_cell. f_equal. apply list_filter_iff. intros p. apply Hiff. }
  rewrite Hhere. split; [done|].
  assert (Hrel : R0 w v). { unfold nd_get in Hw, Ha0. rewrite S1, S2 in Hw. destruct (_ && _) in Hw, Ha0; [|done]. eapply (Forall2_lookup_lr _ _ _ _ _ _ S3); done. }
  unfold R0 in Hrel. subst v. unfold exported_as. destruct w as [q0|]; [|done]. eexists. split; [done|]. unfold eff_up.
  destruct (m_positive_up (g_meta g')), up; cbn; try apply Qred_correct; done.
Qed.
