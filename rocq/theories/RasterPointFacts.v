(** Facts about exported rasters: what they say of the soundings (C127). *)
From Coq Require Import Lqa.
From Verif Require Import Py Nd Numpy Point Bin Algorithms Tile Time Meta Disk Grid GridRun GridQuery GridOps Export Views Spec TileExec GridExec WholeSpec SameSpec RasterPointSpec CompareSpec
  PyFacts NdFacts NumpyFacts AlgFacts MiscFacts GridRunFacts GridFlagFacts GridReadFacts GridAnswerFacts GridCsvFacts ViewsFacts RasterNameFacts GridSameFacts CompareFacts CsvPointFacts.
Open Scope Z_scope.

Lemma sum_below k : forall l, (forall x, x ∈ l -> x <= k)%Q -> (sumQ l <= k * numQ (length l))%Q.
Proof.
  induction l as [|x l IH]; intros H; [cbn; unfold numQ, Qle; cbn; lia|]. cbn [length sumQ fold_right]. rewrite numQ_S.
  assert (Hx : (x <= k)%Q) by (apply H; left). assert (Hl : (sumQ l <= k * numQ (length l))%Q) by (apply IH; intros y Hy; apply H; by right). unfold sumQ in *. lra.
Qed.
Lemma mean_bounds lo hi l m : is_mean l m -> (forall x, x ∈ l -> lo <= x <= hi)%Q -> (lo <= m <= hi)%Q.
Proof.
  intros [Hn H2] H. assert (Hp : (0 < numQ (length l))%Q) by (apply numQ_pos; destruct l; [done|cbn; lia]).
  split; apply (Qmult_le_r _ _ _ Hp); rewrite H2; [apply sum_above|apply sum_below]; intros x Hx; by apply H.
Qed.
Lemma min_bounds lo hi l m : is_min l m -> (forall x, x ∈ l -> lo <= x <= hi)%Q -> (lo <= m <= hi)%Q.
Proof. intros [(x & Hx & E) _] H. rewrite <- E. by apply H. Qed.
Lemma round_bounds (a b : Z) m q : is_round3 m q -> (inject_Z a <= m <= inject_Z b)%Q -> (inject_Z a <= q <= inject_Z b)%Q.
Proof.
  intros H [H1 H2]. assert (R : forall z, is_round3 (inject_Z z) (inject_Z z)).
  { intros z. exists (1000 * z). assert (E : (Qabs (inject_Z z - inject_Z z) == 0)%Q) by (apply Qabs_case; intros; lra). split; [unfold Qeq; cbn; lia|]. split; [lra|]. intros. lra. }
  split; [exact (round3_mono _ _ _ _ H1 (R a) H)|exact (round3_mono _ _ _ _ H2 H (R b))].
Qed.
Lemma cell_bounds (a b : Z) l q : mean_cell l (Some q) \/ least_cell l (Some q) -> (forall x, x ∈ l -> inject_Z a <= x <= inject_Z b)%Q -> (inject_Z a <= q <= inject_Z b)%Q.
Proof.
  intros [[[_ E]|(m & q' & Hm & Hr & [= <-])]|[[_ E]|(m & q' & Hm & Hr & [= <-])]] HB; try done; apply (round_bounds a b m q Hr).
  - by apply (mean_bounds _ _ l).
  - by apply (min_bounds _ _ l).
Qed.
Lemma plausible_value alg l d q : Forall plausible d -> l = "depth" \/ l = "vertical_uncertainty" -> says alg l d (Some q) -> (-999999 <= q <= 999999)%Q.
Proof.
  intros H Hl Hs. rewrite Forall_forall in H.
  assert (A : mean_cell (map pz d) (Some q) \/ least_cell (map pz d) (Some q) \/ mean_cell (map ptvu d) (Some q)).
  { unfold says, depth_by in Hs. repeat case_bool_decide; try tauto; destruct Hl; subst; done. }
  destruct A as [A|[A|A]]; [apply (cell_bounds (-999999) 999999 (map pz d)); [by left|]|apply (cell_bounds (-999999) 999999 (map pz d)); [by right|]|apply (cell_bounds (-999999) 999999 (map ptvu d)); [by left|]];
    intros y (p & -> & Hp)%elem_of_list_fmap; by apply H.
Qed.

(** How an answer with nodata 1000000 compares with one with NaN. *)
Lemma view_no_sounding l flip b x : l ∈ float_layers ->
  exported_as (bool_decide (l = "depth") && flip) no_sounding (cell_fill (layer_nodata l None) (if bool_decide (l = "depth") && b then cell_neg x else x))
    (cell_fill (layer_nodata l no_sounding) (if bool_decide (l = "depth") && xorb b flip then cell_neg x else x)).
Proof.
  intros Hl. rewrite !float_nodata by done. case_bool_decide; cbn [andb]; destruct x as [q|]; destruct flip, b; cbn; try done; eexists; (split; [done|]); rewrite ?Qred_correct; lra.
Qed.

Section raster.
  Context {T : Type} (O : tile_ops T) (e : env) (alg : string) (r : Z) (d : list point) (g : grid T) (up : bool).
  Context (HS : settled O e alg r d g) (Hpl : Forall plausible d).
  Notation raised := (m_positive_up (g_meta g)).
  Context (Hsim : forall l a, kept_layer e alg l -> l ∈ float_layers -> g_get_layers_by_name O e g [l] (Some r) None raised = Ok (g, Some [a]) ->
    exists o', g_get_layers_by_name O e g [l] (Some r) no_sounding up = Ok (g, o') /\ same_answers (exported_as (bool_decide (l = "depth") && xorb raised up) no_sounding) (Some [a]) o').
  Context (Hras : forall ls mx, Forall (kept_layer e alg) ls -> Forall (fun l => l ∈ float_layers) ls -> ls <> [] ->
    (forall l, l ∈ ls -> exists o, g_get_layers_by_name O e g [l] (Some r) no_sounding up = Ok (g, o)) ->
    exists out, g_get_chunks_of_tiles O e g r ls no_sounding up mx true = Ok (g, out) /\ rasters_show O e g r ls no_sounding up out).

  Lemma up_layer l : kept_layer e alg l -> l ∈ float_layers -> exists x a, m_ext (g_meta g) = Some x /\ g_get_layers_by_name O e g [l] (Some r) no_sounding up = Ok (g, Some [a]) /\
    Z.of_nat (nrows a) * r = y1 x - y0 x /\ Z.of_nat (ncols a) * r = x1 x - x0 x /\
    forall R C, (R < nrows a)%nat -> (C < ncols a)%nat -> exists w v, nd_get a R C = Some v /\
      says alg l (points_in_cell (x0 x) (y0 x) r R C d) w /\ exported_as (bool_decide (l = "depth") && xorb raised up) no_sounding w v.
  Proof using HS Hsim.
    intros Hl Hf. destruct HS as [Hr _ HA]. destruct (HA l Hl) as (x & a & Hx & Hq & Hlen & HY & HX & HW).
    destruct (Hsim l a Hl Hf Hq) as (o' & Hq' & Hsame). inversion Hsame as [? arrs Harrs|]. subst o'. inversion Harrs as [|? a' ? ? (S1 & S2 & S3) Hnil]. subst. inversion Hnil. subst.
    exists x, a'. split; [done|]. split; [done|]. rewrite <- S1, <- S2. split; [done|]. split; [done|]. intros R C HR HC. destruct (HW R C HR HC) as (w & Hw' & Hs).
    exists w. unfold nd_get in Hw' |- *. rewrite <- S1, <- S2. destruct (_ && _) in Hw' |- *; [|discriminate Hw'].
    destruct (Forall2_lookup_l _ _ _ _ _ S3 Hw') as (v & Hv & Hsh). exists v. done.
  Qed.
  (** The chunks to export, and every raster file made of them. *)
  Lemma chunk_points ls mx : Forall (kept_layer e alg) ls -> Forall (fun l => l = "depth" \/ l = "vertical_uncertainty") ls -> NoDup ls -> ls <> [] ->
    exists out, g_get_chunks_of_tiles O e g r ls no_sounding up mx true = Ok (g, out) /\
    (forall geo data, (geo, data) ∈ out -> map snd data <> []) /\
    forall fs : list raster_file,
      (forall f, f ∈ fs -> exists geo data, (geo, data) ∈ out /\ rf_rez f = r /\ rf_geo f = geo /\ rf_bands f = map (nd_transpose None) (map snd data)) ->
      (forall geo data, (geo, data) ∈ out -> exists f, f ∈ fs /\ rf_geo f = geo /\ rf_bands f = map (nd_transpose None) (map snd data)) ->
      rasters_of_points alg r (xorb raised up) d ls fs.
  Proof using HS Hpl Hsim Hras.
    intros Hk Hdv Hnd Hne. rewrite Forall_forall in Hk, Hdv.
    assert (Hfl : forall l, l ∈ ls -> l ∈ float_layers) by (intros l Hl; destruct (Hdv l Hl) as [->| ->]; apply (bool_decide_unpack _); vm_compute; exact I).
    destruct (Hras ls mx) as (out & Hout & x & Hx & Hsh & Hall).
    { by apply Forall_forall. }
    { by apply Forall_forall. }
    { done. }
    { intros l Hl. destruct (up_layer l (Hk l Hl) (Hfl l Hl)) as (x & a & _ & Ha & _). eauto. }
    exists out. split; [done|].
    assert (Hdata : forall geo data, (geo, data) ∈ out -> dkeys data = ls) by (intros geo data Hin; by destruct (Hsh geo data Hin)).
    split. { intros geo data Hin Hnil. apply Hne. rewrite <- (Hdata _ _ Hin). by destruct data. }
    intros fs Hfrom Hto. split.
    - intros f Hf. destruct (Hfrom f Hf) as (geo & data & Hin & Hrz & Hgeo & Hbands). destruct (Hsh geo data Hin) as (Hkeys & q & Hq & Hqr & Hb).
      split; [done|]. split; [rewrite Hbands, !map_length, <- Hkeys; unfold dkeys; by rewrite map_length|]. exists q. split; [congruence|]. split; [done|].
      intros j l band Hl Hband. rewrite Hbands, !list_lookup_fmap in Hband. destruct (data !! j) as [[l' dd]|] eqn:Ed; [|done]. injection Hband as <-.
      assert (l' = l) as ->. { unfold dkeys in Hkeys. rewrite <- Hkeys, list_lookup_fmap, Ed in Hl. by injection Hl. }
      pose proof (elem_of_list_lookup_2 _ _ _ Hl) as Hin'. destruct (up_layer l (Hk l Hin') (Hfl l Hin')) as (x' & a & Hx' & Ha & N1 & N2 & HA). rewrite Hx in Hx'. injection Hx' as <-.
      destruct (Hb l dd (Some [a]) (elem_of_list_lookup_2 _ _ _ Ed) Ha) as (band & Hband & B1 & B2 & B3 & Hpix). cbn in Hband. injection Hband as <-. split; [done|]. split; [done|]. split; [done|].
      intros k c v Hkc. destruct (Hpix k c v Hkc) as (a0 & R & C & [= <-] & Ha0 & Hiff). pose proof (nd_get_Some_lt _ _ _ _ Ha0) as [L1 L2].
      destruct (HA R C L1 L2) as (w & v' & Hv' & Hsay & Hexp). rewrite Ha0 in Hv'. injection Hv' as <-.
      assert (Ep : pixel_points q k c d = points_in_cell (x0 x) (y0 x) r R C d) by (apply list_filter_iff; intros p; apply Hiff).
      rewrite Ep. split; intros ->; exists w; (split; [exact Hsay|exact Hexp]).
    - intros p j l Hp Hl. pose proof (elem_of_list_lookup_2 _ _ _ Hl) as Hin'. destruct (up_layer l (Hk l Hin') (Hfl l Hin')) as (x' & a & Hx' & Ha & N1 & N2 & HA). rewrite Hx in Hx'. injection Hx' as <-.
      pose proof (se_pos _ _ _ _ _ _ HS) as Hr. destruct (se_ext _ _ _ _ _ _ HS) as (x' & Hx' & X1 & X2 & X3). rewrite Hx in Hx'. injection Hx' as <-.
      rewrite Forall_forall in X3. destruct (X3 p Hp) as [P1 P2].
      assert (Dn : forall v n lo, lo <= v < lo + Z.of_nat n * r -> exists i, (i < n)%nat /\ lo + Z.of_nat i * r <= v < lo + (Z.of_nat i + 1) * r).
      { clear - Hr. intros v n lo Hv. exists (Z.to_nat ((v - lo) / r)). assert ((v - lo) / r < Z.of_nat n) by (apply Z.div_lt_upper_bound; lia). assert (0 <= (v - lo) / r) by (apply Z.div_pos; lia).
        rewrite Z2Nat.id by lia. pose proof (Z.div_mod (v - lo) r). pose proof (Z.mod_pos_bound (v - lo) r). split; [lia|]. nia. }
      destruct (Dn (py p) (nrows a) (y0 x)) as (R & HR & ER); [lia|]. destruct (Dn (px p) (ncols a) (x0 x)) as (C & HC & EC); [lia|].
      destruct (HA R C HR HC) as (w & v & Hv & Hsay & Hexp).
      assert (Hpc : in_cell (x0 x) (y0 x) r R C (px p) (py p)) by (unfold in_cell; lia).
      assert (Hw : w <> None).
      { eapply says_full; [|exact Hsay]. intros Hnil. assert (Hin : p ∈ points_in_cell (x0 x) (y0 x) r R C d) by (apply elem_of_list_filter; by split). rewrite Hnil in Hin. by apply not_elem_of_nil in Hin. }
      destruct w as [qw|]; [|done].
      assert (Hbnd : (-999999 <= qw <= 999999)%Q).
      { apply (plausible_value alg l (points_in_cell (x0 x) (y0 x) r R C d)); [|by apply Hdv|done]. apply Forall_forall. intros p' [_ Hp']%elem_of_list_filter. by apply (proj1 (Forall_forall _ _) Hpl). }
      assert (Hvn : v <> no_sounding).
      { destruct Hexp as (q' & -> & Hq'). intros [= ->]. destruct (bool_decide (l = "depth") && xorb raised up); lra. }
      destruct (Hall l (Some [a]) (in_cell (x0 x) (y0 x) r R C) v Hin' Ha) as (q & data & dd & band & k & c & Hin & Hget & Hband & Hiff & Hkc); [|done|].
      { exists a, R, C. split; [done|]. split; [done|]. done. }
      destruct (Hto _ _ Hin) as (f & Hf & Hgeo & Hbands). exists f, q, band, k, c, v. split; [done|]. split; [done|].
      cbn in Hband. injection Hband as <-. split; [|split; [by apply Hiff|done]].
      rewrite Hbands, !list_lookup_fmap.
      apply dget_Some_elem, elem_of_list_lookup in Hget as [j' Hj'].
      assert (ls !! j' = Some l). { rewrite <- (Hdata _ _ Hin). unfold dkeys. by rewrite list_lookup_fmap, Hj'. }
      assert (j' = j) as -> by (by eapply NoDup_lookup). by rewrite Hj'.
  Qed.

  Lemma bands_ok (data : list arr) : data <> [] -> gdal_bands data = Ok (map (nd_transpose None) data).
  Proof using. by destruct data. Qed.
  Lemma files_all names : forall chunks n, (forall geo data, (geo, data) ∈ chunks -> map snd data <> []) ->
    exists fs, number_files r names n chunks = Ok fs /\
      (forall f, f ∈ fs -> exists geo data, (geo, data) ∈ chunks /\ rf_rez f = r /\ rf_geo f = geo /\ rf_bands f = map (nd_transpose None) (map snd data)) /\
      (forall geo data, (geo, data) ∈ chunks -> exists f, f ∈ fs /\ rf_geo f = geo /\ rf_bands f = map (nd_transpose None) (map snd data)).
  Proof using.
    induction chunks as [|[geo data] rest IH]; intros n H; cbn [number_files].
    - exists []. split; [done|]. split; [intros f Hf|intros geo data Hf]; by apply not_elem_of_nil in Hf.
    - destruct (IH (S n)) as (fs & E & F1 & F2); [intros geo' data' Hin; apply (H geo'); by right|]. rewrite bands_ok by (apply (H geo); left). cbn [rbind]. rewrite E. cbn [rbind].
      eexists. split; [done|]. split.
      + intros f [->|Hf]%elem_of_cons; [exists geo, data; split; [left|]; done|]. destruct (F1 f Hf) as (geo' & data' & Hin & ?). exists geo', data'. split; [by right|done].
      + intros geo' data' [[= -> ->]|Hin]%elem_of_cons; [eexists; split; [left|]; done|]. destruct (F2 geo' data' Hin) as (f & Hf & ?). exists f. split; [by right|done].
  Qed.
  Lemma bags_all m vert names : forall chunks n, (forall geo data, (geo, data) ∈ chunks -> map snd data <> []) ->
    exists fs, number_bags m vert r names n chunks = Ok fs /\
      (forall f, f ∈ map bf_raster fs -> exists geo data, (geo, data) ∈ chunks /\ rf_rez f = r /\ rf_geo f = geo /\ rf_bands f = map (nd_transpose None) (map snd data)) /\
      (forall geo data, (geo, data) ∈ chunks -> exists f, f ∈ map bf_raster fs /\ rf_geo f = geo /\ rf_bands f = map (nd_transpose None) (map snd data)).
  Proof using.
    induction chunks as [|[geo data] rest IH]; intros n H; cbn [number_bags].
    - exists []. split; [done|]. split; [intros f Hf|intros geo data Hf]; by apply not_elem_of_nil in Hf.
    - destruct (IH (S n)) as (fs & E & F1 & F2); [intros geo' data' Hin; apply (H geo'); by right|]. rewrite bands_ok by (apply (H geo); left). cbn [rbind]. rewrite E. cbn [rbind].
      eexists. split; [done|]. cbn [map bf_raster]. split.
      + intros f [->|Hf]%elem_of_cons; [exists geo, data; split; [left|]; done|]. destruct (F1 f Hf) as (geo' & data' & Hin & ?). exists geo', data'. split; [by right|done].
      + intros geo' data' [[= -> ->]|Hin]%elem_of_cons; [eexists; split; [left|]; done|]. destruct (F2 geo' data' Hin) as (f & Hf & ?). exists f. split; [by right|done].
  Qed.
  Lemma geotiff_points ls fn mx : raster_layers O g up = Ok (ls, fn) -> Forall (kept_layer e alg) ls -> Forall (fun l => l = "depth" \/ l = "vertical_uncertainty") ls -> NoDup ls -> ls <> [] ->
    exists fs, export_geotiff O e g up (Some r) mx = Ok (g, fs) /\ rasters_of_points alg r (xorb raised up) d ls fs.
  Proof using HS Hpl Hsim Hras.
    intros Hl Hk Hdv Hnd Hne. destruct (chunk_points ls mx Hk Hdv Hnd Hne) as (out & Hout & Hd & Hall). destruct (files_all fn out 1 Hd) as (fs & E & F1 & F2).
    exists fs. split; [|by apply Hall]. unfold export_geotiff. rewrite Hl. cbn [rbind foldl fst snd]. change (Some 1000000%Q) with no_sounding. rewrite Hout. cbn [rbind fst snd]. rewrite E. done.
  Qed.
  Lemma bag_points ls fn mx vert : up = true -> bag_layers O g = Ok (ls, fn) -> Forall (kept_layer e alg) ls -> Forall (fun l => l = "depth" \/ l = "vertical_uncertainty") ls -> NoDup ls -> ls <> [] ->
    exists fs, export_bag O e g (Some r) mx vert = Ok (g, fs) /\ rasters_of_points alg r (xorb raised up) d ls (map bf_raster fs).
  Proof using HS Hpl Hsim Hras.
    intros Hup Hl Hk Hdv Hnd Hne. destruct (chunk_points ls mx Hk Hdv Hnd Hne) as (out & Hout & Hd & Hall). destruct (bags_all (g_meta g) (bag_vertical_wkt vert) fn out 1 Hd) as (fs & E & F1 & F2).
    exists fs. split; [|by apply Hall]. unfold export_bag. rewrite Hl. cbn [rbind foldl fst snd]. change (Some 1000000%Q) with no_sounding. rewrite Hup in Hout. rewrite Hout. cbn [rbind fst snd]. rewrite E. done.
  Qed.
End raster.
