(** Facts about csv files and how they compare with rasters. *)
From Coq Require Import Lqa.
From Verif Require Import Py Nd Numpy Point Bin Algorithms Tile Time Meta Disk Grid GridRun GridQuery GridOps Export Spec TileExec GridExec PyFacts NdFacts NumpyFacts
  MiscFacts TileFacts TileGridFacts TileRunFacts TileHistFacts TilePropFacts TileQueryFacts GridBaseFacts GridPlaceFacts GridInvFacts GridRootFacts
  GridEvolveFacts GridSrFacts GridPropFacts GridHistFacts GridRunFacts GridCleanFacts GridUpdateFacts GridLayerFacts GridReadFacts GridAnswerFacts
  GridTrimFacts GridMultiFacts GridChunkFacts GridRasterFacts GridExportFacts GridCountFacts.
Open Scope Z_scope.

Lemma columns_spec m up : forall ls data cols, csv_columns m up ls data = Ok cols ->
  length cols = length ls /\ forall i l c, ls !! i = Some l -> cols !! i = Some c -> exists a, data !! i = Some a /\ c = csv_column m up l a.
Proof.
  induction ls as [|l ls IH]; intros data cols; cbn [csv_columns].
  - intros [= <-]. done.
  - destruct data as [|a data]; [done|]. intros (cols' & H & [= <-])%rbind_Ok. destruct (IH _ _ H) as [H1 H2]. split; [cbn; lia|].
    intros [|i] l' c; cbn; [intros [= <-] [= <-]; eauto|apply H2].
Qed.
Lemma slice_lookup {A} (l : list A) s e b y : slice l s e !! b = Some y -> (b < e - s)%nat /\ l !! (s + b)%nat = Some y.
Proof.
  unfold slice. intros H. assert (Hb : (b < e - s)%nat). { apply lookup_lt_Some in H. rewrite take_length in H. lia. }
  split; [done|]. by rewrite lookup_take, lookup_drop in H.
Qed.
Lemma nodes_lookup lo hi r s e b y : slice (map (fun v => inject_Z v + (r # 2))%Q (arange lo hi r)) s e !! b = Some y ->
  (b < e - s)%nat /\ y = (inject_Z (lo + Z.of_nat (s + b) * r) + (r # 2))%Q.
Proof.
  intros (Hb & H)%slice_lookup. split; [done|]. rewrite list_lookup_fmap, arange_uniform in H.
  destruct (uniform _ _ _ !! _) as [v|] eqn:E; [|done]. injection H as <-. by apply uniform_lookup_Some in E as (_ & ->).
Qed.
Lemma lines_spec xs ys cols x y cs : (x, y, cs) ∈ csv_lines xs ys cols ->
  exists i j, ys !! i = Some y /\ xs !! j = Some x /\ cs = map (fun c : string * arr => default None (nd_get c.2 i j)) cols.
Proof.
  unfold csv_lines. intros H. apply elem_of_list_In, in_concat in H as (row & (i & Hi)%elem_of_list_In%elem_of_list_lookup & H%elem_of_list_In).
  rewrite list_lookup_imap in Hi. destruct (ys !! i) as [y'|] eqn:Ey; [|done]. injection Hi as <-.
  apply elem_of_list_lookup in H as (j & Hj). rewrite list_lookup_imap in Hj. destruct (xs !! j) as [x'|] eqn:Ex; [|done].
  cbn in Hj. injection Hj as -> -> <-. eauto 10.
Qed.
Lemma files_spec r names : forall chunks n fs f, number_files r names n chunks = Ok fs -> f ∈ fs ->
  exists geo data, (geo, data) ∈ chunks /\ rf_geo f = geo /\ rf_names f = names /\ rf_bands f = map (nd_transpose None) (map snd data).
Proof.
  induction chunks as [|[geo data] rest IH]; intros n fs f; cbn [number_files].
  - intros [= <-] H. by apply not_elem_of_nil in H.
  - intros (bands & Hb & H)%rbind_Ok Hf. apply rbind_Ok in H as (l & Hl & [= <-]). apply elem_of_cons in Hf as [->|Hf].
    + exists geo, data. split; [left|]. cbn. split; [done|]. split; [done|]. unfold gdal_bands in Hb. destruct (map snd data); [done|by injection Hb as <-].
    + destruct (IH _ _ _ Hl Hf) as (geo' & data' & H1 & H2). exists geo', data'. split; [by right|done].
Qed.

(** The cells written to the column "depth" or "elevation". *)
Lemma csv_depth {T} (O : tile_ops T) e (g : grid T) up r g1 fs ls : g_return_layer_names O g = Ok ls -> export_csv O e g up (Some r) = Ok (g1, fs) ->
  Forall (fun l => l ∈ std_layers) ls ->
  forall f qx qy cs i v, f ∈ fs -> (qx, qy, cs) ∈ cf_lines f -> cf_names f !! (2 + i)%nat = Some (if up then "elevation" else "depth") -> cs !! i = Some v ->
  ls !! i = Some "depth" /\ exists x full a R C s, m_ext (g_meta g) = Some x /\ g_get_layers_by_name O e g ls (Some r) None false = Ok (g1, Some full) /\ full !! i = Some a /\
    nd_get a R C = Some s /\ (qx == inject_Z (x0 x + Z.of_nat C * r) + (r # 2))%Q /\ (qy == inject_Z (y0 x + Z.of_nat R * r) + (r # 2))%Q /\
    v = if up && negb (Qle_bool (m_mean_depth (g_meta g)) 0) then cell_neg s else s.
Proof.
  intros Hls. unfold export_csv. cbn [foldl rbind fst snd]. rewrite Hls. cbn [rbind]. intros ([g2 [[xs ys] data]] & Hn & H)%rbind_Ok Hstd.
  cbn [snd fst] in H. apply rbind_Ok in H as (cols & Hc & [= <- <-]). intros f qx qy cs i v ->%elem_of_list_singleton. cbn [cf_lines cf_names].
  intros (a & b & Hy & Hx & ->)%lines_spec Hname Hv.
  destruct (columns_spec _ _ _ _ _ Hc) as [HL HC].
  rewrite list_lookup_fmap in Hv. destruct (cols !! i) as [c|] eqn:Ec; [|done]. injection Hv as <-.
  assert (Hi : (i < length ls)%nat) by (rewrite <- HL; by eapply lookup_lt_Some).
  destruct (lookup_lt_is_Some_2 ls i Hi) as [l El]. destruct (HC _ _ _ El Ec) as (arr & Harr & ->).
  assert (Hname' : (fst <$> cols) !! i = Some (if up then "elevation" else "depth")) by exact Hname. clear Hname. rename Hname' into Hname. rewrite list_lookup_fmap, Ec in Hname. injection Hname as Hname.
  assert (l = "depth") as ->.
  { assert (Hl : l ∈ std_layers). { rewrite Forall_forall in Hstd. apply Hstd. by eapply elem_of_list_lookup_2. }
    unfold csv_column in Hname. case_bool_decide as Ed; [done|]. cbn [andb fst] in Hname. destruct up; [|by subst]. subst l.
    apply elem_of_list_In in Hl; cbn in Hl; intuition congruence. }
  split; [done|]. unfold g_surf_nodes in Hn. apply rbind_Ok in Hn as (ng & _ & Hn). destruct ng; [done|]. cbn [pick_rez rbind] in Hn.
  apply rbind_Ok in Hn as ([g3 [[surfs [lo1 lo2]] [hi1 hi2]]] & Ht & Hn). cbn [snd fst] in Hn. apply rbind_Ok in Hn as (x & Hext & [= -> <- <- <-]).
  destruct (trimmed _ _ _ _ _ _ _ _ _ _ _ _ _ Ht) as (full & first & Hq & Hf & HB & HP).
  destruct (m_ext (g_meta g)) as [x'|]; [|done]. injection Hext as ->.
  apply nodes_lookup in Hx as [Hb ->]. apply nodes_lookup in Hy as [Ha ->].
  destruct (Forall2_lookup_r _ _ _ _ _ HP Harr) as (big & Hbig & P1 & P2 & P3 & P4).
  destruct (nd_get arr a b) as [s|] eqn:Es; [|destruct (nd_get_is_Some arr a b) as [s Hs']; [done|lia|lia|by rewrite Hs' in Es]].
  exists x, full, big, (lo1 + a)%nat, (lo2 + b)%nat, s. split; [done|]. split; [done|]. split; [done|].
  split; [rewrite <- P4; [done|lia|lia]|]. split; [done|]. split; [done|].
  unfold csv_column. destruct up; [|rewrite andb_false_r; cbn [snd andb]; by rewrite Es].
  change (bool_decide ("depth" = "depth") && true) with true. cbn [snd andb]. destruct (Qle_bool _ 0); cbn [negb]; [by rewrite Es|].
  rewrite nd_get_map, Es. done.
Qed.

(** The centre of a pixel. *)
Lemma centre_cell (x : ext) r q k c R C R' C' (qx qy : Q) : 0 < r -> q.1.2 = r ->
  (forall px py, in_pixel q k c px py <-> in_cell (x0 x) (y0 x) r R C px py) -> pixel_centre q k c qx qy ->
  (qx == inject_Z (x0 x + Z.of_nat C' * r) + (r # 2))%Q -> (qy == inject_Z (y0 x + Z.of_nat R' * r) + (r # 2))%Q -> R = R' /\ C = C'.
Proof.
  destruct q as [[gx r'] gy]. cbn. intros Hr -> Hiff [P1 P2] Q1 Q2.
  rewrite P1 in Q1. rewrite P2 in Q2. apply Qplus_inj_r in Q1, Q2. rewrite inject_Z_injective in Q1, Q2.
  destruct (proj1 (Hiff (gx + Z.of_nat c * r) (gy - (Z.of_nat k + 1) * r))) as [A1 A2]; [unfold in_pixel; lia|].
  destruct (proj2 (Hiff (x0 x + Z.of_nat C * r) (y0 x + Z.of_nat R * r))) as [B1 B2]; [unfold in_cell; lia|].
  assert (Z.of_nat C * r = Z.of_nat C' * r) by lia. assert (Z.of_nat R * r = Z.of_nat R' * r) by lia.
  split; apply Nat2Z.inj; eapply Z.mul_reg_r; eauto; lia.
Qed.

Lemma first_names (g : sr_grid) ls r : g_return_layer_names sr_ops g = Ok ls -> ls <> [] ->
  (forall k t, tile_at g k = Some t -> r ∈ dkeys (t_cells t)) -> g_layer_names sr_ops g = ls /\ g_no_grid sr_ops g = Ok false.
Proof.
  unfold g_return_layer_names, g_layer_names. intros (b & Hb & H)%rbind_Ok Hne Hr. destruct b; [by injection H as <-|]. split; [|done].
  destruct (live_tiles g) as [|t l] eqn:El; [by injection H as <-|].
  assert (Ht : t ∈ live_tiles g) by (rewrite El; left). apply live_at in Ht as [k Ht]. specialize (Hr k t Ht).
  cbn [map op_layer_names op_first_layers sr_ops] in *. unfold t_layer_names. destruct (t_cells t) as [|[r' d] c]; [by apply not_elem_of_nil in Hr|by injection H as <-].
Qed.

Lemma raster_names {T} (O : tile_ops T) (g : grid T) up ls ln fn j : m_backscatter (g_meta g) = false -> g_layer_names O g = ls -> raster_layers O g up = Ok (ln, fn) ->
  fn !! j = Some (if up then "Elevation" else "Depth") ->
  ln = filter (fun l => l ∈ ["depth"; "vertical_uncertainty"; "total_uncertainty"]) ls /\ ln !! j = Some "depth".
Proof.
  unfold raster_layers. intros -> ->. cbn [negb andb].
  set (lf := filter _ ls). assert (Hlf : forall l, l ∈ lf -> l = "depth" \/ l = "vertical_uncertainty" \/ l = "total_uncertainty").
  { intros l (H & _)%elem_of_list_filter. apply elem_of_list_In in H. cbn in H. intuition congruence. }
  clearbody lf. intros H Hj. assert (ln = lf) as ->. { destruct up; [case_bool_decide; [|done]|]; by injection H. }
  split; [done|]. assert (Hfn : fn = (if up then fmap (fun s => if bool_decide (s = "Depth") then "Elevation" else s) (fmap band_name lf) else fmap band_name lf)).
  { destruct up; [case_bool_decide; [|done]|]; by injection H. }
  subst fn. assert (Hb : exists l, lf !! j = Some l /\ (if up then (if bool_decide (band_name l = "Depth") then "Elevation" else band_name l) else band_name l) = (if up then "Elevation" else "Depth")).
  { destruct up; rewrite !list_lookup_fmap in Hj; destruct (lf !! j) as [l|]; try done; exists l; split; try done; cbn in Hj; congruence. }
  destruct Hb as (l & El & Hl). rewrite El. f_equal. destruct (Hlf l) as [->|[->| ->]]; [by eapply elem_of_list_lookup_2|done| |]; by destruct up.
Qed.
Section agree.
  Context {T : Type} (O : tile_ops T) (e : env) (g : grid T) (r : Z) (ls : list string) (up : bool).
  Context (Hr : 0 < r) (Hback : m_backscatter (g_meta g) = false) (Hls : g_return_layer_names O g = Ok ls) (Hlay : g_layer_names O g = ls) (Hstd : Forall (fun l => l ∈ std_layers) ls).
  Context (Hmul : exists o, g_get_layers_by_name O e g ls (Some r) None false = Ok (g, o) /\
    match o with
    | Some arrs => Forall2 (fun l a => g_get_layers_by_name O e g [l] (Some r) None false = Ok (g, Some [a])) ls arrs
    | None => Forall (fun l => g_get_layers_by_name O e g [l] (Some r) None false = Ok (g, None)) ls
    end).
  Context (Hsim : forall l a, l ∈ ls -> g_get_layers_by_name O e g [l] (Some r) None false = Ok (g, Some [a]) ->
    exists o, g_get_layers_by_name O e g [l] (Some r) (Some 1000000%Q) up = Ok (g, o) /\ (l = "depth" -> same_answers (exported_as up (Some 1000000%Q)) (Some [a]) o)).
  Context (Hras : forall ln mx, Forall (fun l => l ∈ float_layers) ln -> ln <> [] ->
    (forall l, l ∈ ln -> exists o, g_get_layers_by_name O e g [l] (Some r) (Some 1000000%Q) up = Ok (g, o)) ->
    exists out, g_get_chunks_of_tiles O e g r ln (Some 1000000%Q) up mx true = Ok (g, out) /\ rasters_show O e g r ln (Some 1000000%Q) up out).
  Lemma csv_agrees mx g1 fs g2 rs : export_csv O e g up (Some r) = Ok (g1, fs) -> export_geotiff O e g up (Some r) mx = Ok (g2, rs) ->
    forall f qx qy cs i v, f ∈ fs -> (qx, qy, cs) ∈ cf_lines f -> cf_names f !! (2 + i)%nat = Some (if up then "elevation" else "depth") -> cs !! i = Some v ->
    forall rf q j band k c w, rf ∈ rs -> rf_geo rf = Some q -> rf_names rf !! j = Some (if up then "Elevation" else "Depth") -> rf_bands rf !! j = Some band ->
      pixel_centre q k c qx qy -> nd_get band k c = Some w ->
      exported_as (up && Qle_bool (m_mean_depth (g_meta g)) 0) (Some 1000000%Q) v w.
  Proof using All.
    intros Hcsv Hgt f qx qy cs i v Hf Hline Hname Hv rf q j band k c w Hrf Hgeo Hrn Hband Hcen Hw.
    destruct (csv_depth _ _ _ _ _ _ _ _ Hls Hcsv Hstd _ _ _ _ _ _ Hf Hline Hname Hv) as (Hld & x & full & a & R & C & s & Hext & Hq & Ha & Hs0 & Hqx & Hqy & Hv').
    destruct Hmul as (o & Ho & Hmul'). rewrite Hq in Ho. injection Ho as -> <-.
    pose proof (Forall2_lookup_lr _ _ _ _ _ _ Hmul' Hld Ha) as Hqd. cbn beta in Hqd.
    unfold export_geotiff in Hgt. apply rbind_Ok in Hgt as ([ln fn] & Hln & Hgt). cbn [foldl rbind fst snd] in Hgt.
    apply rbind_Ok in Hgt as ([g3 out] & Hout & Hgt). cbn [fst snd] in Hgt, Hout. apply rbind_Ok in Hgt as (fl & Hfl & [= <- <-]). cbn [app] in Hrf.
    destruct (files_spec _ _ _ _ _ _ Hfl Hrf) as (geo & data & Hin & Hg1 & Hg2 & Hg3).
    assert (Hnames : ln = filter (fun l => l ∈ ["depth"; "vertical_uncertainty"; "total_uncertainty"]) ls /\ ln !! j = Some "depth").
    { rewrite Hg2 in Hrn. apply (raster_names O g up ls ln fn j); done. }
    destruct Hnames as [Hln' Hlnj].
    assert (Hsub : forall l, l ∈ ln -> l ∈ ls /\ l ∈ float_layers).
    { intros l Hl. rewrite Hln' in Hl. apply elem_of_list_filter in Hl as [H1 H2]. split; [done|].
      apply elem_of_list_In in H1. cbn in H1. destruct H1 as [<-|[<-|[<-|[]]]]; apply (bool_decide_unpack _); vm_compute; exact I. }
    clear Hln'.
    assert (Hquery : forall l, l ∈ ln -> exists o, g_get_layers_by_name O e g [l] (Some r) (Some 1000000%Q) up = Ok (g, o)).
    { intros l Hl. destruct (Hsub l Hl) as [H1 H2]. pose proof H1 as H3. apply elem_of_list_lookup in H1 as [i' Hi']. destruct (Forall2_lookup_l _ _ _ _ _ Hmul' Hi') as (a' & _ & Hqa).
      destruct (Hsim l a' H3 Hqa) as (o & Ho & _). eauto. }
    destruct (Hsim "depth" a) as (o' & Hq' & Hsame); [by eapply elem_of_list_lookup_2|done|]. specialize (Hsame eq_refl).
    inversion Hsame as [? arrs Harrs|]. subst o'. inversion Harrs as [|? arr' ? ? (S1 & S2 & S3) Hnil]. subst arrs. inversion Hnil. subst.
    destruct (Hras ln mx) as (out' & Hout' & x' & Hx' & Hsh & _).
    { apply Forall_forall. intros l Hl. by apply Hsub. }
    { intros E. by rewrite E in Hlnj. }
    { done. }
    rewrite Hout in Hout'. injection Hout' as -> <-. rewrite Hext in Hx'. injection Hx' as <-.
    destruct (Hsh _ _ Hin) as (Hkeys & q' & Hgq & Hqr & Hb). rewrite Hgeo in Hgq. injection Hgq as <-.
    rewrite Hg3 in Hband. rewrite !list_lookup_fmap in Hband. destruct (data !! j) as [[l d]|] eqn:Ed; [|done]. injection Hband as <-.
    assert (l = "depth") as ->. { unfold dkeys in Hkeys. rewrite <- Hkeys in Hlnj. rewrite list_lookup_fmap, Ed in Hlnj. by injection Hlnj. }
    destruct (Hb "depth" d (Some [arr']) (elem_of_list_lookup_2 _ _ _ Ed) Hq') as (band & [= <-] & _ & _ & _ & Hpix).
    destruct (Hpix k c w Hw) as (a0 & R' & C' & [= <-] & Ha0 & Hiff).
    destruct (centre_cell x r q k c R' C' R C qx qy Hr Hqr Hiff Hcen Hqx Hqy) as [-> ->].
    assert (Hrel : exported_as up (Some 1000000%Q) s w). { unfold nd_get in Hs0, Ha0. rewrite S1, S2 in Hs0. destruct (_ && _) in Hs0, Ha0; [|done]. eapply (Forall2_lookup_lr _ _ _ _ _ _ S3); done. }
    unfold exported_as in *. destruct up; cbn [andb]; [|done]. destruct (Qle_bool _ 0); cbn [negb]; [done|].
    destruct s as [q0|]; cbn; [|done]. destruct Hrel as (q1 & -> & Hq1). eexists. split; [done|]. rewrite Qred_correct. lra.
  Qed.
End agree.

(** How an answer with nodata 1000000 compares with one with NaN. *)
Lemma view_exported b up x :
  exported_as up (Some 1000000%Q) (cell_fill (layer_nodata "depth" None) (if bool_decide ("depth"%string = "depth"%string) && b then cell_neg x else x))
    (cell_fill (layer_nodata "depth" (Some 1000000%Q)) (if bool_decide ("depth"%string = "depth"%string) && xorb b up then cell_neg x else x)).
Proof.
  change (bool_decide ("depth"%string = "depth"%string)) with true. cbn [andb].
  destruct x as [q0|]; destruct up, b; cbn; try done; eexists; (split; [done|]); rewrite ?Qred_correct; lra.
Qed.
Lemma eff_xorb m up : eff_up m up = xorb (eff_up m false) up.
Proof. unfold eff_up. by destruct (m_positive_up m), up. Qed.
Lemma eff_xorb2 m m' up : eff_up m (eff_up m' up) = xorb (eff_up m (eff_up m' false)) up.
Proof. unfold eff_up. by destruct (m_positive_up m), (m_positive_up m'), up. Qed.

Lemma csv_rasters e size zarr disk g ct r ls up mx g1 fs g2 rs :
  0 < size -> sr_clean e known_args size false zarr disk g ct -> ct <> [] -> 0 < r -> size mod r = 0 ->
  g_return_layer_names sr_ops g = Ok ls -> NoDup ls -> Forall (fun l => l ∈ std_layers) ls ->
  (forall k t l, tile_at g k = Some t -> l ∈ ls -> exists a q, layer_of t r l = Some a /\ Some q ∈ nflat a) ->
  export_csv sr_ops e g up (Some r) = Ok (g1, fs) -> export_geotiff sr_ops e g up (Some r) mx = Ok (g2, rs) ->
  forall f qx qy cs i v, f ∈ fs -> (qx, qy, cs) ∈ cf_lines f -> cf_names f !! (2 + i)%nat = Some (if up then "elevation" else "depth") -> cs !! i = Some v ->
  forall rf q j band k c w, rf ∈ rs -> rf_geo rf = Some q -> rf_names rf !! j = Some (if up then "Elevation" else "Depth") -> rf_bands rf !! j = Some band ->
    pixel_centre q k c qx qy -> nd_get band k c = Some w ->
    exported_as (up && Qle_bool (m_mean_depth (g_meta g)) 0) (Some 1000000%Q) v w.
Proof.
  intros Hs H Hne Hr Hm Hls Hnd Hstd HL Hcsv Hgt f qx qy cs i v Hf Hline Hname Hv.
  destruct (csv_depth _ _ _ _ _ _ _ _ Hls Hcsv Hstd _ _ _ _ _ _ Hf Hline Hname Hv) as (Hld & _).
  assert (Hl0 : ls <> []) by (by destruct ls).
  assert (Hrez : forall k t, tile_at g k = Some t -> r ∈ dkeys (t_cells t)).
  { intros k0 t Ht. destruct (HL k0 t "depth" Ht) as (a0 & _ & Ha0 & _); [by eapply elem_of_list_lookup_2|]. unfold layer_of in Ha0. apply dget_is_Some.
    by destruct (dget (t_cells t) r). }
  destruct (first_names g ls r Hls) as [Hlay Hng]; [done|done|].
  destruct (clean_history_of _ _ _ _ _ _ H) as (seen & ok & Hh).
  assert (Hback : m_backscatter (g_meta g) = false).
  { pose proof (sr_inv e size false zarr disk Hs _ _ _ _ Hh) as [HB _]. by rewrite (mf_back _ _ (rb_meta _ _ _ HB)). }
  eapply (csv_agrees sr_ops e g r ls up Hr Hback Hls Hlay Hstd); try done.
  - apply (sr_multi e known_args size false zarr disk g ct r ls None false Hs (fun _ h => h) H Hne Hr Hm Hng); try done.
    intros k0 t d l Ht Hd Hl. destruct (HL k0 t l Ht Hl) as (a0 & q0 & Ha0 & Hq0). unfold layer_of in Ha0. rewrite Hd in Ha0. eauto.
  - intros l a Hl Hq. destruct (decide (l = "depth")) as [->|Hnl].
    + destruct (sr_sim e known_args size false zarr disk g ct "depth" r None (Some 1000000%Q) false up (exported_as up (Some 1000000%Q)) g (Some [a]) Hs (fun _ h => h) H) as (_ & o' & Hq' & Hsame); try done.
      * by apply (proj1 (Forall_forall _ _) Hstd).
      * intros x. rewrite (eff_xorb _ up). apply view_exported.
      * exists o'. by split.
    + destruct (sr_sim e known_args size false zarr disk g ct l r None (Some 1000000%Q) false up (fun _ _ => True) g (Some [a]) Hs (fun _ h => h) H) as (_ & o & Ho & _); try done; [by apply (proj1 (Forall_forall _ _) Hstd)|].
      exists o. by split.
  - intros ln mx' Hfl Hln Hq. by apply (sr_rasters e size false zarr disk g ct seen ok r ln (Some 1000000%Q) up mx').
Qed.

(** A test for the last hypothesis above. *)
Definition filled (g : sr_grid) (r : Z) (ls : list string) : bool :=
  forallb (fun t => forallb (fun l => match layer_of t r l with Some a => existsb (fun c : cell => match c with Some _ => true | None => false end) (nflat a) | None => false end) ls) (live_tiles g).
Lemma filled_spec g r ls : filled g r ls = true -> forall k t l, tile_at g k = Some t -> l ∈ ls -> exists a q, layer_of t r l = Some a /\ Some q ∈ nflat a.
Proof.
  unfold filled. intros H k t l Ht Hl. rewrite forallb_forall in H. specialize (H t).
  assert (Hin : t ∈ live_tiles g).
  { unfold live_tiles, tile_at in *. destruct (g_tiles g) as [a|]; [|done]. apply elem_of_list_omap. exists (Some t). split; [|done].
    destruct (nflat a !! k) as [o|] eqn:E; [|done]. cbn in Ht. subst o. by eapply elem_of_list_lookup_2. }
  apply elem_of_list_In in Hin. specialize (H Hin). rewrite forallb_forall in H. apply elem_of_list_In in Hl. specialize (H l Hl).
  destruct (layer_of t r l) as [a|]; [|done]. apply existsb_exists in H as (c & Hc & H). destruct c as [q|]; [|done]. exists a, q. split; [done|]. by apply elem_of_list_In.
Qed.
