(** Several layers of a variable resolution grid at once (C36), and csv files of variable resolution grids compared with rasters (C68); from soundings to pixels (C44). *)
From Coq Require Import Lqa.
From Verif Require Import Py Nd Numpy Point Bin Algorithms Tile Time Meta Disk Grid GridRun GridQuery GridOps Spec TileExec GridExec WholeSpec PyFacts NdFacts NumpyFacts AlgFacts BinFacts
  MiscFacts TileFacts TileGridFacts TileSpecFacts TileRunFacts TileHistFacts ShoalFacts TilePropFacts TileQueryFacts GridBaseFacts GridPlaceFacts GridInvFacts GridRootFacts
  GridEvolveFacts GridSrFacts GridPropFacts GridHistFacts GridRunFacts GridCleanFacts GridUpdateFacts GridDensityFacts GridFlagFacts GridLayerFacts GridReadFacts GridAnswerFacts GridMultiFacts GridWholeFacts GridCountFacts Export GridExportFacts GridCsvFacts.
Open Scope Z_scope.

Lemma vr_nonempty e (P : gargs -> Prop) size sub b zarr disk g ct k sg j t : 0 < size -> 0 < sub -> (forall a, P a -> known_args a) ->
  vr_clean e P size sub b zarr disk g ct -> tile_at g k = Some sg -> tile_at sg j = Some t -> t_is_empty t = false.
Proof.
  intros Hs Hsub HP H Hg Ht.
  destruct (vr_clean_inv e (fun _ _ => True) P size sub b zarr disk Hs Hsub (fun a Pa => known_allows a (HP a Pa)) g ct H) as (_ & seen & ok & HI).
  destruct (root_rep _ _ _ _ _ _ _ _ HI Hg) as (x & y & ct' & (HC & _) & Hne).
  destruct HC as [_ [(_ & ? & _)|(_ & a & Pl & _)]]; [done|].
  destruct (placed_points _ _ _ _ _ _ _ _ _ _ _ Pl Ht) as (u & v & ct2 & HQ & Hne2). destruct HQ as [(_ & HR & _) _]. by eapply rep_nonempty.
Qed.

(** A sub-grid has none of the layers, or each of them. *)
Lemma sub_all_or_none e (sg : grid tile) x y sub m n r ls nodata u : 0 < r -> (0 < n)%nat -> sub = Z.of_nat n * r -> sub_frame sg x y sub m ->
  g_no_grid sr_ops sg = Ok false ->
  (forall j t, tile_at sg j = Some t -> all_or_none sr_ops e r nodata u n ls t) -> all_or_none vr_ops e r nodata u (m * n) ls sg.
Proof.
  intros Hr Hn Hsub HF Hg HT.
  assert (Hu : eff_up (g_meta sg) u = u) by (unfold eff_up; rewrite (sf_up _ _ _ _ _ HF); by destruct u).
  assert (H1 : forall l, l ∈ ls -> forall k t, tile_at sg k = Some t -> all_or_none sr_ops e r nodata (eff_up (g_meta sg) u) n [l] t).
  { intros l Hl k t Ht. rewrite Hu. destruct (HT k t Ht) as [H|H]; [left|right]; intros l' ->%elem_of_list_singleton; by apply H. }
  assert (H2 : forall l, l ∈ ls -> exists o, g_get_layer sr_ops e sg l r nodata u = Ok (sg, o) /\
    match o with
    | Some a => shape_is a (m * n) (m * n) /\ exists k t, tile_at sg k = Some t /\ exists a, op_get_layer sr_ops e t l r nodata u = Ok (t, Some a)
    | None => forall k t, tile_at sg k = Some t -> op_get_layer sr_ops e t l r nodata u = Ok (t, None) end).
  { intros l Hl. destruct (multi_query sr_ops e sg r [l] nodata u m m n (NoDup_singleton l) (sf_box _ _ _ _ _ HF r n Hr Hn Hsub) Hg (H1 l Hl)) as (o1 & Q1 & O1); [done|].
    rewrite Hu in O1. unfold g_get_layer. rewrite Q1. cbn [rbind fst snd]. destruct o1 as [arrs|].
    - destruct O1 as (-> & k & t & Ht & H). cbn [map seq length]. eexists. split; [reflexivity|]. split.
      + unfold assembled. split; [apply nd_init_wf|done].
      + exists k, t. split; [done|]. destruct (H l) as (a & Ha & _); [by left|]. by exists a.
    - eexists. split; [reflexivity|]. intros k t Ht. apply (O1 k t Ht). by left. }
  destruct ls as [|l0 ls]; [left; intros l ?%not_elem_of_nil; done|].
  destruct (H2 l0) as (o0 & _ & O0); [left|]. destruct o0 as [a0|].
  - destruct O0 as (_ & k & t & Ht & b & Hb). destruct (HT k t Ht) as [H|H]; [rewrite (H l0) in Hb by left; discriminate Hb|].
    right. intros l Hl. destruct (H2 l Hl) as (o & Hq & Ho). cbn [op_get_layer vr_ops]. destruct o as [a|].
    + exists a. split; [exact Hq|]. by destruct Ho.
    + destruct (H l Hl) as (c & Hc & _). rewrite (Ho k t Ht) in Hc. discriminate Hc.
  - left. intros l Hl. destruct (H2 l Hl) as (o & Hq & Ho). cbn [op_get_layer vr_ops]. destruct o as [a|]; [|exact Hq].
    destruct Ho as (_ & k & t & Ht & b & Hb). destruct (HT k t Ht) as [H|H].
    + rewrite (H l Hl) in Hb. discriminate Hb.
    + destruct (H l0) as (c & Hc & _); [left|]. rewrite (O0 k t Ht) in Hc. discriminate Hc.
Qed.

Lemma vr_multi e (P : gargs -> Prop) size sub b zarr disk g ct r ls nodata up : 0 < size -> 0 < sub -> (forall a, P a -> known_args a) ->
  vr_clean e P size sub b zarr disk g ct -> ct <> [] -> 0 < r -> size mod sub = 0 -> sub mod r = 0 ->
  g_no_grid vr_ops g = Ok false -> (forall k sg, tile_at g k = Some sg -> g_no_grid sr_ops sg = Ok false) ->
  ls <> [] -> NoDup ls -> Forall (fun l => l ∈ std_layers) ls ->
  (forall k sg j t d l, tile_at g k = Some sg -> tile_at sg j = Some t -> dget (t_cells t) r = Some d -> l ∈ ls -> exists a q, dget d l = Some a /\ Some q ∈ nflat a) ->
  exists o, g_get_layers_by_name vr_ops e g ls (Some r) nodata up = Ok (g, o) /\
  match o with
  | Some arrs => Forall2 (fun l a => g_get_layers_by_name vr_ops e g [l] (Some r) nodata up = Ok (g, Some [a])) ls arrs
  | None => Forall (fun l => g_get_layers_by_name vr_ops e g [l] (Some r) nodata up = Ok (g, None)) ls
  end.
Proof.
  intros Hs Hsub HP H Hct Hr Hm1 Hm2 Hg Hgs Hne Hnd Hls HL. destruct (vr_frame _ _ _ _ _ _ _ _ _ Hs Hsub Hm1 HP H Hct) as (lx & ly & nx & ny & HF & HS).
  set (m := Z.to_nat (size / sub)) in HS. assert (Em : size = Z.of_nat m * sub). { unfold m. rewrite Z2Nat.id by (apply Z.div_pos; lia). pose proof (Z.div_mod size sub). lia. }
  set (n := Z.to_nat (sub / r)). assert (En : sub = Z.of_nat n * r). { unfold n. rewrite Z2Nat.id by (apply Z.div_pos; lia). pose proof (Z.div_mod sub r). lia. }
  assert (Hm0 : (0 < m)%nat) by (destruct m; lia). assert (Hn0 : (0 < n)%nat) by (destruct n; lia). clearbody m n.
  apply (multi_single vr_ops e g r ls nodata up nx ny (m * n)); try done.
  - apply (fr_box _ _ _ _ _ _ _ HF); [done|by apply Nat.mul_pos_pos|]. rewrite Em, En, Nat2Z.inj_mul. ring.
  - intros k sg Hk. eapply sub_all_or_none; [exact Hr|exact Hn0|exact En|exact (HS k sg Hk)|exact (Hgs k sg Hk)|].
    intros j t Ht. apply sr_all_or_none; [exact (vr_nonempty e P size sub b zarr disk g ct k sg j t Hs Hsub HP H Hk Ht)|done|].
    destruct (dget (t_cells t) r) as [d|] eqn:Hd; [|by left]. right. intros l Hl.
    destruct (HL k sg j t d l Hk Ht Hd Hl) as (a & q & Ha & Hq). exists a. unfold layer_of. rewrite Hd. split; [done|].
    destruct (vr_good _ _ _ _ _ _ _ _ _ _ _ _ _ Hs Hsub HP H Hk Ht) as (x & y & HG & HA). split.
    + eapply good_shape; [exact HG| |exact Hd|exact Ha]. destruct HA as (_ & _ & HA & _). congruence.
    + destruct (all_nan a) eqn:E; [|done]. unfold all_nan in E. rewrite forallb_forall in E. apply elem_of_list_In, E in Hq. done.
Qed.

(** ** Csv files and rasters *)
Lemma vr_first_names e (P : gargs -> Prop) size sub b zarr disk g ct ls r : 0 < size -> 0 < sub -> (forall a, P a -> known_args a) ->
  vr_clean e P size sub b zarr disk g ct -> g_return_layer_names vr_ops g = Ok ls -> ls <> [] ->
  (forall k sg j t, tile_at g k = Some sg -> tile_at sg j = Some t -> r ∈ dkeys (t_cells t)) ->
  g_layer_names vr_ops g = ls /\ g_no_grid vr_ops g = Ok false /\ forall k sg, tile_at g k = Some sg -> g_no_grid sr_ops sg = Ok false.
Proof.
  intros Hs Hsub HP H Hls Hne Hr.
  destruct (vr_clean_inv e (fun _ _ => True) P size sub b zarr disk Hs Hsub (fun a Pa => known_allows a (HP a Pa)) g ct H) as (_ & seen & ok & HI).
  assert (HS : forall k sg, tile_at g k = Some sg -> exists t l n, live_tiles sg = t :: l /\ m_ntiles (g_meta sg) = Some n /\ 0 < n /\ g_tiles sg <> None /\ exists r' d c, t_cells t = (r', d) :: c).
  { intros k sg Hk. destruct (root_rep _ _ _ _ _ _ _ _ HI Hk) as (x & y & ct' & (HC & _) & Hne').
    destruct HC as [HB [(_ & ? & _)|(_ & a & Pl & Hn & _)]]; [done|].
    assert (Hl : exists t, t ∈ live_tiles sg).
    { destruct Pl as [P1 P2 P3 P4 P5 P6 P7 P8]. destruct (slots_live (sub0 size sub b zarr x y) _ Hsub _ _ _ _ _ _ P7 P8) as (j & t & Hj); [rewrite all_points_nil_iff by apply HB; done|].
      exists t. unfold live_tiles. rewrite P4. apply elem_of_list_omap. exists (Some t). split; [|done]. by eapply elem_of_list_lookup_2. }
    destruct (live_tiles sg) as [|t l] eqn:El.
    - destruct Hl as [t Ht]. by apply not_elem_of_nil in Ht.
    - exists t, l, (count_live (nflat a)). split; [done|]. split; [done|].
      assert (Hg : g_tiles sg = Some a) by apply Pl.
      assert (Ht : t ∈ live_tiles sg) by (rewrite El; left). split.
      + unfold live_tiles in El. rewrite Hg in El. unfold count_live. replace (omap id (nflat a)) with (t :: l) by exact (eq_sym El). cbn. lia.
      + split; [by rewrite Hg|]. apply live_at in Ht as [j Ht]. specialize (Hr k sg j t Hk Ht). destruct (t_cells t) as [|[r' d] c]; [by apply not_elem_of_nil in Hr|eauto]. }
  assert (HN : forall k sg, tile_at g k = Some sg -> g_no_grid sr_ops sg = Ok false).
  { intros k sg Hk. destruct (HS k sg Hk) as (t & l & n & El & _ & _ & Hg & r' & d & c & Hc). unfold g_no_grid. destruct (g_tiles sg); [|done]. rewrite El.
    cbn [op_probe sr_ops]. rewrite Hc. done. }
  unfold g_return_layer_names in Hls. apply rbind_Ok in Hls as (b0 & Hb & Hls). destruct b0; [by injection Hls as <-|]. split; [|by split].
  unfold g_layer_names. destruct (live_tiles g) as [|sg l] eqn:El; [by injection Hls as <-|].
  assert (Hk : sg ∈ live_tiles g) by (rewrite El; left). apply live_at in Hk as [k Hk]. destruct (HS k sg Hk) as (t & l' & n & El' & Hn & Hn0 & _ & r' & d & c & Hc).
  cbn [map op_first_layers vr_ops grid_ops op_layer_names] in *. rewrite Hn in Hls. destruct (0 <? n) eqn:E0; [|lia]. unfold g_layer_names. rewrite El' in *.
  cbn [map op_first_layers sr_ops op_layer_names] in *. unfold t_layer_names. rewrite Hc in *. by injection Hls as <-.
Qed.
Lemma vr_csv_rasters e size sub zarr disk g ct r ls up mx g1 fs g2 rs :
  0 < size -> 0 < sub -> vr_clean e known_args size sub false zarr disk g ct -> ct <> [] -> 0 < r -> size mod sub = 0 -> sub mod r = 0 ->
  g_return_layer_names vr_ops g = Ok ls -> NoDup ls -> Forall (fun l => l ∈ std_layers) ls ->
  (forall k sg j t l, tile_at g k = Some sg -> tile_at sg j = Some t -> l ∈ ls -> exists a q, layer_of t r l = Some a /\ Some q ∈ nflat a) ->
  export_csv vr_ops e g up (Some r) = Ok (g1, fs) -> export_geotiff vr_ops e g up (Some r) mx = Ok (g2, rs) ->
  forall f qx qy cs i v, f ∈ fs -> (qx, qy, cs) ∈ cf_lines f -> cf_names f !! (2 + i)%nat = Some (if up then "elevation" else "depth") -> cs !! i = Some v ->
  forall rf q j band k c w, rf ∈ rs -> rf_geo rf = Some q -> rf_names rf !! j = Some (if up then "Elevation" else "Depth") -> rf_bands rf !! j = Some band ->
    pixel_centre q k c qx qy -> nd_get band k c = Some w ->
    exported_as (up && Qle_bool (m_mean_depth (g_meta g)) 0) (Some 1000000%Q) v w.
Proof.
  intros Hs Hsub H Hne Hr Hm1 Hm2 Hls Hnd Hstd HL Hcsv Hgt f qx qy cs i v Hf Hline Hname Hv.
  destruct (csv_depth _ _ _ _ _ _ _ _ Hls Hcsv Hstd _ _ _ _ _ _ Hf Hline Hname Hv) as (Hld & _).
  assert (Hl0 : ls <> []) by (by destruct ls).
  assert (Hrez : forall k sg j t, tile_at g k = Some sg -> tile_at sg j = Some t -> r ∈ dkeys (t_cells t)).
  { intros k0 sg j0 t Hk Ht. destruct (HL k0 sg j0 t "depth" Hk Ht) as (a0 & _ & Ha0 & _); [by eapply elem_of_list_lookup_2|]. unfold layer_of in Ha0. apply dget_is_Some.
    by destruct (dget (t_cells t) r). }
  destruct (vr_first_names e known_args size sub false zarr disk g ct ls r Hs Hsub (fun _ h => h) H Hls Hl0 Hrez) as (Hlay & Hng & Hngs).
  destruct (clean_history_of _ _ _ _ _ _ H) as (seen & ok & Hh).
  assert (Hback : m_backscatter (g_meta g) = false).
  { pose proof (vr_inv e size sub false zarr disk Hs Hsub _ _ _ _ Hh) as [HB _]. by rewrite (mf_back _ _ (rb_meta _ _ _ HB)). }
  eapply (csv_agrees vr_ops e g r ls up Hr Hback Hls Hlay Hstd); try done.
  - apply (vr_multi e known_args size sub false zarr disk g ct r ls None false Hs Hsub (fun _ h => h) H Hne Hr Hm1 Hm2 Hng Hngs); try done.
    intros k0 sg j0 t d l Hk Ht Hd Hl. destruct (HL k0 sg j0 t l Hk Ht Hl) as (a0 & q0 & Ha0 & Hq0). unfold layer_of in Ha0. rewrite Hd in Ha0. eauto.
  - intros l a Hl Hq. destruct (decide (l = "depth")) as [->|Hnl].
    + destruct (vr_sim e known_args size sub false zarr disk g ct "depth" r None (Some 1000000%Q) false up (exported_as up (Some 1000000%Q)) g (Some [a]) Hs Hsub (fun _ h => h) H) as (_ & o' & Hq' & Hsame); try done.
      * by apply (proj1 (Forall_forall _ _) Hstd).
      * intros m x. rewrite (eff_xorb2 _ _ up). apply view_exported.
      * exists o'. by split.
    + destruct (vr_sim e known_args size sub false zarr disk g ct l r None (Some 1000000%Q) false up (fun _ _ => True) g (Some [a]) Hs Hsub (fun _ h => h) H) as (_ & o & Ho & _); try done; [by apply (proj1 (Forall_forall _ _) Hstd)|].
      exists o. by split.
  - intros ln mx' Hfl Hln Hq. apply (vr_rasters e size sub false zarr disk g ct seen ok r ln (Some 1000000%Q) up mx'); try done.
    apply Z.mod_divide in Hm1 as [u Hu]; [|lia]. apply Z.mod_divide in Hm2 as [w Hw]; [|lia]. apply Z.mod_divide; [lia|]. exists (u * w). rewrite Hu, Hw. ring.
Qed.

(** ** From soundings to pixels *)
Lemma vr_depth_rasters e alg r size sub zarr disk g' ct nodata up mx :
  alg = "mean" \/ alg = "shoalest" -> 0 < size -> 0 < sub -> vr_clean e known_args size sub false zarr disk g' ct -> ct <> [] ->
  0 < r -> size mod sub = 0 -> sub mod r = 0 ->
  answers_by vr_ops e g' "depth" r (m_positive_up (g_meta g')) (all_points ct) (depth_by alg) ->
  exists out, g_get_chunks_of_tiles vr_ops e g' r ["depth"] nodata up mx true = Ok (g', out) /\
  forall geo data, (geo, data) ∈ out -> exists q d band, geo = Some q /\ data = [("depth", d)] /\ gdal_bands [d] = Ok [band] /\
  forall k c v, nd_get band k c = Some v ->
    exists w, depth_by alg (filter (fun p => in_pixel q k c (px p) (py p)) (all_points ct)) w /\ exported_as (xorb (m_positive_up (g_meta g')) up) nodata w v.
Proof.
  intros Halg Hs Hsub H' Hne Hr Hm1 Hm2 (x & arr & Hext & Hq & Hlen & Hrows & Hcols & Hcell).
  set (u0 := m_positive_up (g_meta g')) in *.
  pose (R0 := fun v w : cell => exported_as (xorb u0 up) nodata v w).
  destruct (vr_sim e known_args size sub false zarr disk g' ct "depth" r None nodata u0 up R0 g' (Some [arr]) Hs Hsub (fun _ h => h) H') as (_ & o' & Hq' & Hsame).
  { by apply float_std, (bool_decide_unpack _). }
  { done. }
  { intros m v. unfold R0, eff_up. fold u0. change (bool_decide ("depth"%string = "depth"%string)) with true. cbn [andb].
    destruct v as [q|]; destruct u0, up, (m_positive_up m); cbn; try done; eexists; (split; [done|]); rewrite ?Qred_correct; lra. }
  { done. }
  inversion Hsame as [? arrs Harrs|]; subst. inversion Harrs as [|? arr' ? ? (S1 & S2 & S3) Hnil]; subst. inversion Hnil; subst.
  destruct (clean_history_of _ _ _ _ _ _ H') as (seen & ok & Hh).
  destruct (vr_rasters e size sub false zarr disk g' ct seen ok r ["depth"] nodata up mx Hs Hsub Hh Hne Hr) as (out & Hout & x' & Hx' & Hsh & _).
  { apply Z.mod_divide in Hm1 as [u Hu]; [|lia]. apply Z.mod_divide in Hm2 as [w Hw]; [|lia]. apply Z.mod_divide; [lia|]. exists (u * w). rewrite Hu, Hw. ring. }
  { constructor; [by apply (bool_decide_unpack _)|constructor]. }
  { done. }
  { intros l ->%elem_of_list_singleton. eauto. }
  rewrite Hext in Hx'. injection Hx' as <-. exists out. split; [done|]. intros geo data Hin. destruct (Hsh geo data Hin) as (Hkeys & q & -> & _ & Hb).
  destruct data as [|[l d] data]; [done|]. injection Hkeys as -> Hk'. destruct data; [|done].
  destruct (Hb "depth" d (Some [arr']) (elem_of_list_here _ _) Hq') as (band & Hg & _ & _ & _ & Hv). exists q, d, band. split; [done|]. split; [done|]. split; [done|].
  intros k c v Hkc. destruct (Hv k c v Hkc) as (a0 & R & C & [= <-] & Ha0 & Hiff). pose proof (nd_get_Some_lt _ _ _ _ Ha0) as [B1 B2].
  destruct (Hcell R C) as (w & Hw & HW); [congruence|congruence|]. exists w.
  replace (filter (fun p => in_pixel q k c (px p) (py p)) (all_points ct)) with (points_in_cell (x0 x) (y0 x) r R C (all_points ct)).
  2:{ unfold points_in_cell. apply list_filter_iff. intros p. symmetry. apply Hiff. }
  split; [done|]. unfold nd_get in Hw, Ha0. rewrite S1, S2 in Hw. destruct (_ && _) in Hw, Ha0; [|done]. exact (Forall2_lookup_lr _ _ _ _ _ _ S3 Hw Ha0).
Qed.
