(** Facts about exported rasters: no two overlap (C128). *)
From Verif Require Import Py Nd Numpy Point Bin Algorithms Tile Time Meta Disk Grid GridRun GridQuery GridOps Export Views Spec TileExec GridExec WholeSpec RasterPointSpec PyFacts NdFacts NumpyFacts AlgFacts BinFacts
  MiscFacts TileFacts TileGridFacts TileSpecFacts TileRunFacts TileHistFacts ShoalFacts TilePropFacts TileQueryFacts GridBaseFacts GridPlaceFacts GridInvFacts GridRootFacts
  GridEvolveFacts GridSrFacts GridVrFacts GridPropFacts GridHistFacts GridRunFacts GridCleanFacts GridUpdateFacts GridDensityFacts GridFlagFacts GridLayerFacts GridReadFacts GridAnswerFacts GridTrimFacts
  GridMultiFacts GridChunkFacts GridRasterFacts GridExportFacts.
Open Scope Z_scope.

(** ** Chunks *)
Lemma concat_nodup {A} (ls : list (list A)) : NoDup (concat ls) -> [] ∉ ls -> NoDup ls.
Proof.
  induction ls as [|l ls IH]; intros H Hn; [constructor|]. cbn in H. apply NoDup_app in H as (_ & H1 & H2). apply not_elem_of_cons in Hn as [Hn Hn']. constructor; [|by apply IH].
  intros Hl. destruct l as [|a l]; [done|]. apply (H1 a); [left|]. apply elem_concat. exists (a :: l). split; [done|left].
Qed.
Lemma sublist_nodup {A} (l k : list A) : sublist l k -> NoDup k -> NoDup l.
Proof.
  induction 1 as [|x l k H IH|x l k H IH]; intros HN; [done|..]; apply NoDup_cons in HN as [N1 N2]; [|by apply IH]. constructor; [|by apply IH].
  intros Hx. apply N1. eapply elem_of_submseteq; [exact Hx|]. by apply sublist_submseteq.
Qed.
Lemma chunks_blocks {T} (g : grid T) a mx chunks : g_tiles g = Some a -> nd_wf a -> tile_chunk_indices g mx = Ok chunks ->
  exists P : list (nat * nat) -> block -> Prop, (forall il, il ∈ chunks -> exists b, P il b) /\
    (forall il b rc, P il b -> rc ∈ il -> in_block b rc.1 rc.2) /\
    (forall il il' b b' i j, P il b -> P il' b' -> in_block b i j -> in_block b' i j -> il = il').
Proof.
  intros Ha Hw (r0 & c0 & r1 & c1 & HB & ->)%(chunks_window g a Ha Hw). rewrite split_blocks. set (W := window a r0 c0 r1 c1).
  exists (fun il b => exists b0, b0 ∈ blocks_of W (chunk_tiles g mx, chunk_tiles g mx) /\ il = values_in W b0 /\ b = ((r0 + b0.1.1, b0.1.2), (c0 + b0.2.1, b0.2.2))%nat).
  split; [|split].
  - intros il Hil. apply elem_keep in Hil as (_ & b & Hb & Hv). eexists _, b. done.
  - intros il b rc (b0 & _ & -> & ->) Hrc. apply values_elem in Hrc as (i & j & Hin & H). apply (window_get a Hw _ _ _ _ _ _ _ HB) in H as [-> _]. unfold in_block in *. cbn in *. lia.
  - intros il il' b b' i j (b0 & H0 & -> & ->) (b1 & H1 & -> & ->) I0 I1. f_equal. apply (blocks_once W (chunk_tiles g mx) b0 b1 (i - r0)%nat (j - c0)%nat); [done..| |]; unfold in_block in *; cbn in *; lia.
Qed.

(** ** The rasters of a grid *)
Definition item_bands (item : option (Z * Z * Z) * dict string arr) : option (Z * Z * Z) * list arr := (item.1, map (nd_transpose None) (map snd item.2)).
Section apart.
  Context {T : Type} (O : tile_ops T) (e : env) (g : grid T) (r : Z) (ls : list string) (nodata : cell) (up : bool) (nx ny n : nat) (lx ly : Z).
  Notation size := (m_tile_size (g_meta g)).
  Context (HB : boxed g r nx ny n) (Hg : g_no_grid O g = Ok false).
  Context (Hq : forall l, l ∈ ls -> exists o, g_get_layers_by_name O e g [l] (Some r) nodata up = Ok (g, o)).
  Context (Hgeo : forall k t, tile_at g k = Some t -> op_geo O t r = Some (lx + Z.of_nat (k mod nx) * size, r, ly + Z.of_nat (k / nx + 1) * size)).
  Context (Hfl : Forall (fun l => l ∈ float_layers) ls).
  Notation yields := (yields O e g r ls nodata up nx ny n lx ly).

  Lemma chunks_yield mx out g' : g_get_chunks_of_tiles O e g r ls nodata up mx true = Ok (g', out) ->
    exists (chunks : list (list (nat * nat))) (P : list (nat * nat) -> block -> Prop), NoDup chunks /\ Forall2 yields chunks out /\
    (forall il, il ∈ chunks -> exists b, P il b) /\ (forall il b rc, P il b -> rc ∈ il -> in_block b rc.1 rc.2) /\
    (forall il il' b b' i j, P il b -> P il' b' -> in_block b i j -> in_block b' i j -> il = il').
  Proof using HB Hg Hq Hgeo Hfl.
    pose proof (bx_tiles _ _ _ _ _ HB) as (a & Ta & Tr & Tc & Tl). assert (Hw : nd_wf a) by (unfold nd_wf; congruence).
    unfold g_get_chunks_of_tiles. intros (chunks & Hch & HF)%rbind_Ok.
    destruct (chunks_blocks g a _ chunks Ta Hw Hch) as (P & P1 & P2 & P3). destruct (chunks_once g a Ta Hw _ chunks Hch) as (D1 & D2 & Hall).
    assert (Hlive : forall rc, live a rc <-> here g nx rc).
    { intros [i j]. unfold live, here, tile_at. rewrite Ta. cbn [fst snd]. unfold nd_get. rewrite Tr, Tc. split.
      - intros [t' Ht]. destruct (_ && _) eqn:E; [|done]. apply andb_true_iff in E as [E1%bool_decide_eq_true E2%bool_decide_eq_true]. split; [done|]. exists t'. by rewrite Ht.
      - intros [Hc [t' Ht]]. destruct (nflat a !! _) as [o|] eqn:E; [|done]. cbn in Ht. subst o. exists t'. rewrite <- E.
        apply lookup_lt_Some in E. rewrite Tl in E. assert (i < ny)%nat by nia. by rewrite !bool_decide_eq_true_2 by done. }
    assert (Hbx : forall il, il ∈ chunks -> il <> [] /\ (forall rc, rc ∈ il -> here g nx rc) /\ exists b : block, forall rc, here g nx rc -> in_block b rc.1 rc.2 <-> rc ∈ il).
    { intros il Hil. destruct (chunk_box g a Ta Hw _ chunks il Hch Hil) as (H1 & _ & b & Hb & _). split; [done|]. split.
      - intros rc Hrc. apply Hlive. by apply Hb in Hrc as [? _].
      - exists b. intros rc Hrc. rewrite Hb, Hlive. tauto. }
    assert (G : forall todo out, (forall il, il ∈ todo -> il ∈ chunks) -> exists kept out', sublist kept todo /\ Forall2 yields kept out' /\
      foldl (read_chunk O e r ls nodata up true) (Ok (g, out)) todo = Ok (g, out ++ out')).
    { induction todo as [|il todo IH]; intros out0 Hin.
      - exists [], []. rewrite app_nil_r. split; [constructor|]. split; [constructor|done].
      - cbn [foldl]. destruct (Hbx il) as (B1 & B2 & B3); [apply Hin; left|].
        destruct (chunk_read O e g r ls nodata up nx ny n lx ly HB (queries_get O e g r ls nodata up nx ny n lx ly HB Hg Hq) Hgeo il out0 B1 B2 B3 (floats_fill nodata ls Hfl)) as [[-> _]|(item & -> & Hy)].
        + destruct (IH out0) as (kept & out' & K1 & K2 & ->); [intros; apply Hin; by right|]. exists kept, out'. split; [by apply sublist_cons|]. done.
        + destruct (IH (out0 ++ [item])) as (kept & out' & K1 & K2 & ->); [intros; apply Hin; by right|]. exists (il :: kept), (item :: out'). split; [by apply sublist_skip|]. split; [by constructor|]. by rewrite <- app_assoc. }
    destruct (G chunks [] (fun _ h => h)) as (kept & out' & K1 & K2 & E). rewrite E in HF. injection HF as _ <-.
    exists kept, P. split; [eapply sublist_nodup; [exact K1|]; by apply concat_nodup|]. split; [done|]. split; [|done].
    intros il Hil. apply P1. eapply elem_of_submseteq; [exact Hil|]. by apply sublist_submseteq.
  Qed.
  Lemma bands_apart mx out g' : g_get_chunks_of_tiles O e g r ls nodata up mx true = Ok (g', out) -> one_pixel (map item_bands out).
  Proof using HB Hg Hq Hgeo Hfl.
    intros (chunks & P & Hnd & HY & P1 & P2 & P3)%chunks_yield x y i j p p' q q' band0 band1 k c k' c' Hi Hj Hp Hp' Hb Hb' [v Hv] [v' Hv'] Hx Hx'.
    pose proof (bx_n _ _ _ _ _ HB) as Hn. pose proof (bx_rez _ _ _ _ _ HB) as Hr.
    apply list_lookup_fmap_inv in Hi as (it & -> & Hi), Hj as (it' & -> & Hj). cbn [item_bands fst snd] in Hp, Hp', Hb, Hb'.
    destruct (Forall2_lookup_r _ _ _ _ _ HY Hi) as (il & Hil & [(r0 & c0 & h & w & Hh & Hw & Hc & Hrow & E1 & E2 & E3 & E4 & E5)]).
    assert (Hcell : forall it il (q : Z * Z * Z) bd k c v r0 c0 h w, it.1 = Some q -> it.1 = Some (lx + Z.of_nat c0 * size, r, ly + Z.of_nat (r0 + h) * size) ->
      it.2 = map (fun l => (l, nd_fliplr None (nd_transpose None (pasted O e g r nodata up nx n r0 c0 (r0 + h - 1) (c0 + w - 1) l il)))) ls ->
      (forall l, l ∈ ls -> nd_transpose None (nd_fliplr None (nd_transpose None (pasted O e g r nodata up nx n r0 c0 (r0 + h - 1) (c0 + w - 1) l il))) = band O e g r nodata up nx n r0 c0 h w l) ->
      bd ∈ map (nd_transpose None) (map snd it.2) -> nd_get bd k c = Some v -> in_pixel q k c x y ->
      (k < h * n)%nat /\ (c < w * n)%nat /\ in_cell lx ly r (r0 * n + (h * n - 1 - k)) (c0 * n + c) x y).
    { clear - HB Hgeo. intros it il q bd k c v r0 c0 h w G1 G2 G3 G4 Hbd Hv Hp. rewrite G3, map_map in Hbd. rewrite map_map in Hbd. apply elem_of_list_fmap in Hbd as (l & -> & Hl). cbn [snd] in Hv.
      rewrite (G4 l Hl) in Hv. apply nd_get_Some_lt in Hv as [B1 B2]. cbn [nrows ncols band nd_init] in B1, B2. split; [done|]. split; [done|].
      rewrite G2 in G1. injection G1 as <-. by apply (pixel_cell O g r nx ny n lx ly HB Hgeo). }
    destruct (Hcell it il q band0 k c v r0 c0 h w Hp E1 E2 E3 Hb Hv Hx) as (K1 & K2 & K3).
    assert (Hone : forall R C R' C', in_cell lx ly r R C x y -> in_cell lx ly r R' C' x y -> R = R' /\ C = C').
    { clear - Hr. unfold in_cell. intros R C R' C' [A1 A2] [A3 A4]. split; nia. }
    assert (Hsq : forall r0 c0 h w k c : nat, (k < h * n -> c < w * n -> r0 <= (r0 * n + (h * n - 1 - k)) / n < r0 + h /\ c0 <= (c0 * n + c) / n < c0 + w)%nat).
    { clear - Hn. intros r0 c0 h w k c Hk Hc. repeat split; first [apply Nat.div_le_lower_bound; lia|apply Nat.div_lt_upper_bound; nia]. }
    assert (i = j) as <-.
    { destruct (Forall2_lookup_r _ _ _ _ _ HY Hj) as (il' & Hil' & [(r0' & c0' & h' & w' & _ & _ & _ & _ & E1' & E2' & E3' & _ & E5')]).
      destruct (Hcell it' il' q' band1 k' c' v' r0' c0' h' w' Hp' E1' E2' E3' Hb' Hv' Hx') as (K1' & K2' & K3').
      destruct (P1 il (elem_of_list_lookup_2 _ _ _ Hil)) as [b Pb]. destruct (P1 il' (elem_of_list_lookup_2 _ _ _ Hil')) as [b' Pb'].
      destruct (Hone _ _ _ _ K3 K3') as [HR HC].
      assert (il = il') as <-.
      { apply (P3 il il' b b' ((r0 * n + (h * n - 1 - k)) / n)%nat ((c0 * n + c) / n)%nat Pb Pb').
        - destruct (Hsq r0 c0 h w k c K1 K2). apply E5; [|done..]. intros rc Hrc. by apply (P2 il b).
        - rewrite HR, HC. destruct (Hsq r0' c0' h' w' k' c' K1' K2'). apply E5'; [|done..]. intros rc Hrc. by apply (P2 il' b'). }
      by eapply NoDup_lookup. }
    rewrite Hi in Hj. injection Hj as <-. destruct (Hcell it il q' band1 k' c' v' r0 c0 h w Hp' E1 E2 E3 Hb' Hv' Hx') as (K1' & K2' & K3').
    destruct (Hone _ _ _ _ K3 K3') as [HR HC]. split; [done|]. clear - HR HC K1 K1'. split; lia.
  Qed.
End apart.

Lemma sr_apart e size b zarr disk g ct seen ok r ls nodata up mx g' out :
  0 < size -> sr_history e size b zarr disk g ct seen ok -> ct <> [] -> 0 < r -> size mod r = 0 ->
  Forall (fun l => l ∈ float_layers) ls -> ls <> [] ->
  (forall k t, tile_at g k = Some t -> r ∈ dkeys (t_cells t)) ->
  (forall l, l ∈ ls -> exists o, g_get_layers_by_name sr_ops e g [l] (Some r) nodata up = Ok (g, o)) ->
  g_get_chunks_of_tiles sr_ops e g r ls nodata up mx true = Ok (g', out) -> one_pixel (map item_bands out).
Proof.
  intros Hs H Hne Hr Hm Hfl Hls Hrez Hq. apply (sr_inv e size b zarr disk Hs) in H.
  destruct (root_slot (new_sr_meta 0 0 size b zarr) _ _ _ _ _ Hs H Hne) as (lx & ly & nx & ny & HF & HS). cbn [m_tile_size new_sr_meta new_meta] in HF, HS.
  assert (Hn : size = Z.of_nat (Z.to_nat (size / r)) * r). { rewrite Z2Nat.id by (apply Z.div_pos; lia). pose proof (Z.div_mod size r). lia. }
  set (n := Z.to_nat (size / r)) in *. assert (Hn0 : (0 < n)%nat) by (destruct n; lia).
  assert (Hg : g_no_grid sr_ops g = Ok false). { destruct ls as [|l ls']; [done|]. destruct (Hq l) as [o Ho]; [left|]. by eapply query_grid. }
  apply (bands_apart sr_ops e g r ls nodata up nx ny n lx ly (fr_box _ _ _ _ _ _ _ HF r n Hr Hn0 Hn) Hg Hq); [|done].
  intros k t Ht. rewrite (fr_size _ _ _ _ _ _ _ HF). destruct (HS k t Ht) as (ct' & (A1 & A2 & A3 & _) & _). cbn. unfold t_get_geotransform, dmem.
  rewrite bool_decide_eq_true_2 by (by eapply Hrez). unfold t_max_y. rewrite A1, A2, A3. do 2 f_equal. lia.
Qed.
Lemma vr_apart e size sub b zarr disk g ct seen ok r ls nodata up mx g' out :
  0 < size -> 0 < sub -> vr_history e size sub b zarr disk g ct seen ok -> ct <> [] -> 0 < r -> size mod r = 0 ->
  Forall (fun l => l ∈ float_layers) ls -> ls <> [] ->
  (forall l, l ∈ ls -> exists o, g_get_layers_by_name vr_ops e g [l] (Some r) nodata up = Ok (g, o)) ->
  g_get_chunks_of_tiles vr_ops e g r ls nodata up mx true = Ok (g', out) -> one_pixel (map item_bands out).
Proof.
  intros Hs Hsub H Hne Hr Hm Hfl Hls Hq. apply (vr_inv e size sub b zarr disk Hs Hsub) in H.
  destruct (root_slot (new_vr_meta 0 0 size sub b zarr) _ _ _ _ _ Hs H Hne) as (lx & ly & nx & ny & HF & HS). cbn [m_tile_size new_vr_meta new_meta] in HF, HS.
  assert (Hn : size = Z.of_nat (Z.to_nat (size / r)) * r). { rewrite Z2Nat.id by (apply Z.div_pos; lia). pose proof (Z.div_mod size r). lia. }
  set (n := Z.to_nat (size / r)) in *. assert (Hn0 : (0 < n)%nat) by (destruct n; lia).
  assert (Hg : g_no_grid vr_ops g = Ok false). { destruct ls as [|l ls']; [done|]. destruct (Hq l) as [o Ho]; [left|]. by eapply query_grid. }
  apply (bands_apart vr_ops e g r ls nodata up nx ny n lx ly (fr_box _ _ _ _ _ _ _ HF r n Hr Hn0 Hn) Hg Hq); [|done].
  intros k t Ht. rewrite (fr_size _ _ _ _ _ _ _ HF). destruct (HS k t Ht) as (ct' & HC & _). cbn. rewrite (cb_ext _ _ _ _ _ _ HC). cbn [x0 y1]. do 2 f_equal. lia.
Qed.

(** ** Files *)
Lemma gdal_same data bands : gdal_bands data = Ok bands -> bands = map (nd_transpose None) data.
Proof. destruct data; [done|]. by intros [= <-]. Qed.
Lemma files_placed r names : forall chunks n fs, number_files r names n chunks = Ok fs -> map placed_bands fs = map item_bands chunks.
Proof.
  induction chunks as [|[geo data] rest IH]; intros n fs; cbn [number_files]; [by intros [= <-]|].
  intros (bands & ->%gdal_same & H)%rbind_Ok. apply rbind_Ok in H as (fs' & Hf & [= <-]). cbn [map]. by rewrite (IH _ _ Hf).
Qed.
Lemma bags_placed m vert r names : forall chunks n fs, number_bags m vert r names n chunks = Ok fs -> map placed_bands (map bf_raster fs) = map item_bands chunks.
Proof.
  induction chunks as [|[geo data] rest IH]; intros n fs; cbn [number_bags]; [by intros [= <-]|].
  intros (bands & ->%gdal_same & H)%rbind_Ok. apply rbind_Ok in H as (fs' & Hf & [= <-]). cbn [map bf_raster]. by rewrite (IH _ _ Hf).
Qed.
Lemma geotiff_chunks {T} (O : tile_ops T) e g up r mx g' fs : export_geotiff O e g up (Some r) mx = Ok (g', fs) ->
  exists ls fn out, raster_layers O g up = Ok (ls, fn) /\ g_get_chunks_of_tiles O e g r ls no_sounding up mx true = Ok (g', out) /\ map placed_bands fs = map item_bands out.
Proof.
  unfold export_geotiff. intros ([ls fn] & Hl & H)%rbind_Ok. cbn [foldl fst snd rbind] in H. apply rbind_Ok in H as ([g1 out] & Hc & H). apply rbind_Ok in H as (fs' & Hf & H).
  cbn in H. injection H as <- <-. exists ls, fn, out. split; [done|]. split; [done|]. by apply files_placed in Hf.
Qed.
Lemma bag_chunks {T} (O : tile_ops T) e g r mx vert g' fs : export_bag O e g (Some r) mx vert = Ok (g', fs) ->
  exists ls fn out, bag_layers O g = Ok (ls, fn) /\ g_get_chunks_of_tiles O e g r ls no_sounding true mx true = Ok (g', out) /\ map placed_bands (map bf_raster fs) = map item_bands out.
Proof.
  unfold export_bag. intros ([ls fn] & Hl & H)%rbind_Ok. cbn [foldl fst snd rbind] in H. apply rbind_Ok in H as ([g1 out] & Hc & H). apply rbind_Ok in H as (fs' & Hf & H).
  cbn in H. injection H as <- <-. exists ls, fn, out. split; [done|]. split; [done|]. by apply bags_placed in Hf.
Qed.
