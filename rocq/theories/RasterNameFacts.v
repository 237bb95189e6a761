(** The names of the bands of exported rasters. *)
From Coq Require Import Lqa.
From Verif Require Import Py Nd Numpy Point Bin Algorithms Tile Time Meta Disk Grid GridRun GridQuery GridOps Export Views Spec TileExec GridExec PyFacts NdFacts
  NumpyFacts BinFacts MiscFacts MetaFacts GridPlaceFacts GridCsvFacts ViewsFacts.
Open Scope Z_scope.

(** The layers that a raster of soundings holds. *)
Definition depth_layers (ls : list string) : list string :=
  filter (fun l => l = "depth" \/ l = "vertical_uncertainty" \/ l = "total_uncertainty") ls.
(** What a band of a geotiff and of a BAG is called. *)
Inductive tif_title (up : bool) : string -> string -> Prop :=
| TT_depth : up = false -> tif_title up "depth" "Depth"
| TT_elevation : up = true -> tif_title up "depth" "Elevation"
| TT_vertical : tif_title up "vertical_uncertainty" "Vertical Uncertainty"
| TT_total : tif_title up "total_uncertainty" "Total Uncertainty".
Inductive bag_title : string -> string -> Prop :=
| BT_elevation : bag_title "depth" "Elevation"
| BT_vertical : bag_title "vertical_uncertainty" "Uncertainty"
| BT_total : bag_title "total_uncertainty" "Uncertainty".

Lemma depth_layers_eq ls : filter (fun l => l ∈ ["depth"; "vertical_uncertainty"; "total_uncertainty"]) ls = depth_layers ls.
Proof.
  unfold depth_layers. induction ls as [|l ls IH]; [done|]. rewrite !filter_cons, IH.
  destruct (decide (l ∈ _)) as [H|H]; destruct (decide (_ \/ _)) as [H'|H']; try done; exfalso.
  - apply H'. rewrite !elem_of_cons in H. destruct H as [H|[H|[H|H]]]; [tauto..|]. by apply not_elem_of_nil in H.
  - apply H. rewrite !elem_of_cons. tauto.
Qed.
Lemma titles (R : string -> string -> Prop) (h : string -> string) ls :
  R "depth" (h "depth") -> R "vertical_uncertainty" (h "vertical_uncertainty") -> R "total_uncertainty" (h "total_uncertainty") ->
  Forall2 R (depth_layers ls) (map h (depth_layers ls)).
Proof.
  intros H1 H2 H3. unfold depth_layers. induction ls as [|l ls IH]; [constructor|]. rewrite !filter_cons.
  destruct (decide _) as [[->|[->| ->]]|]; [..|done]; cbn [map]; by constructor.
Qed.

Lemma finalize_keys : forall layers n minc minr maxc maxr ds nodata gd l, finalize_layers layers n minc minr maxc maxr ds nodata gd = Ok l -> map fst l = layers.
Proof.
  induction layers as [|lyr rest IH]; intros n minc minr maxc maxr ds nodata gd l; cbn [finalize_layers]; [by intros [= <-]|].
  intros H. repeat (apply rbind_Ok in H as (? & ? & H)). injection H as <-. cbn [map fst]. f_equal. by eapply IH.
Qed.
Lemma chunks_keys {T} (O : tile_ops T) e (g : grid T) r ls nodata up mx gd g' out :
  g_get_chunks_of_tiles O e g r ls nodata up mx gd = Ok (g', out) -> forall geo data, (geo, data) ∈ out -> map fst data = ls.
Proof.
  unfold g_get_chunks_of_tiles. intros (idx & _ & H)%rbind_Ok.
  refine (foldl_res_inv _ (fun s : grid T * list (option (Z * Z * Z) * dict string arr) => forall geo data, (geo, data) ∈ s.2 -> map fst data = ls) idx _ _ (g, []) _ _ H).
  - done.
  - intros s il s' Hs. unfold read_chunk. cbn [rbind]. intros (cols & _ & Hq)%rbind_Ok. apply rbind_Ok in Hq as ([[g1 geo] ds] & _ & Hq).
    destruct (forallb _ ds); [by injection Hq as <-|]. apply rbind_Ok in Hq as (n & _ & Hq). destruct (existsb _ ds); [done|].
    apply rbind_Ok in Hq as (data & Hd & [= <-]). cbn [snd]. intros geo' data' [Hin|Hin]%elem_of_app; [by eapply Hs|].
    apply elem_of_list_singleton in Hin as [= -> ->]. unfold finalize_chunk in Hd. apply rbind_Ok in Hd as (? & _ & Hd). apply rbind_Ok in Hd as (? & _ & Hd).
    apply rbind_Ok in Hd as (? & _ & Hd). apply rbind_Ok in Hd as (? & _ & Hd). by eapply finalize_keys.
  - intros geo data Hz. by apply not_elem_of_nil in Hz.
Qed.

Section names.
  Context {T : Type} (O : tile_ops T) (e : env) (g : grid T).
  Lemma tif_names up rez mx g' fs : export_geotiff O e g up rez mx = Ok (g', fs) ->
    exists ln fn, raster_layers O g up = Ok (ln, fn) /\ forall f, f ∈ fs -> rf_names f = fn /\ length (rf_bands f) = length ln.
  Proof.
    unfold export_geotiff. cbv zeta. intros ([ln fn] & Hl & H)%rbind_Ok. exists ln, fn. split; [done|].
    refine (foldl_res_inv _ (fun s : grid T * list raster_file => forall f, f ∈ s.2 -> rf_names f = fn /\ length (rf_bands f) = length ln) _ _ _ (g, []) _ _ H).
    - done.
    - intros s r s' Hs. cbn [rbind]. intros ([g1 out] & Hc & Hq)%rbind_Ok. apply rbind_Ok in Hq as (fs' & Hf & [= <-]). cbn [fst snd] in *.
      intros f [Hin|Hin]%elem_of_app; [by apply Hs|]. destruct (files_spec _ _ _ _ _ _ Hf Hin) as (geo & data & Hd & _ & HN & HB).
      split; [done|]. by rewrite HB, !map_length, <- (chunks_keys _ _ _ _ _ _ _ _ _ _ _ Hc _ _ Hd), map_length.
    - intros f Hf. by apply not_elem_of_nil in Hf.
  Qed.
  Lemma bag_names rez mx vert g' fs : export_bag O e g rez mx vert = Ok (g', fs) ->
    exists ln fn, bag_layers O g = Ok (ln, fn) /\ forall f, f ∈ fs -> rf_names (bf_raster f) = fn /\ length (rf_bands (bf_raster f)) = length ln.
  Proof.
    unfold export_bag. cbv zeta. intros ([ln fn] & Hl & H)%rbind_Ok. exists ln, fn. split; [done|].
    refine (foldl_res_inv _ (fun s : grid T * list bag_file => forall f, f ∈ s.2 -> rf_names (bf_raster f) = fn /\ length (rf_bands (bf_raster f)) = length ln) _ _ _ (g, []) _ _ H).
    - done.
    - intros s r s' Hs. cbn [rbind]. intros ([g1 out] & Hc & Hq)%rbind_Ok. apply rbind_Ok in Hq as (fs' & Hf & [= <-]). cbn [fst snd] in *.
      intros f [Hin|Hin]%elem_of_app; [by apply Hs|]. destruct (bags_spec _ _ _ _ _ _ _ _ Hf Hin) as (geo & data & Hd & _ & HN & HB & _).
      split; [done|]. by rewrite HB, !map_length, <- (chunks_keys _ _ _ _ _ _ _ _ _ _ _ Hc _ _ Hd), map_length.
    - intros f Hf. by apply not_elem_of_nil in Hf.
  Qed.
  Lemma raster_layers_titles up ln fn : m_backscatter (g_meta g) = false -> raster_layers O g up = Ok (ln, fn) ->
    ln = depth_layers (g_layer_names O g) /\ Forall2 (tif_title up) ln fn.
  Proof.
    unfold raster_layers. intros ->. cbn [negb andb]. rewrite depth_layers_eq. destruct up.
    - case_bool_decide; [|done]. intros [= <- <-]. split; [done|]. rewrite map_map. apply titles; by constructor.
    - intros [= <- <-]. split; [done|]. apply titles; by constructor.
  Qed.
  Lemma bag_layers_titles ln fn : bag_layers O g = Ok (ln, fn) ->
    ln = depth_layers (g_layer_names O g) /\ Forall2 bag_title ln fn.
  Proof.
    unfold bag_layers. rewrite depth_layers_eq. case_bool_decide; [|done]. intros [= <- <-]. split; [done|]. rewrite map_map. apply titles; constructor.
  Qed.
  Lemma raster_layers_backscatter up ln fn : m_backscatter (g_meta g) = true -> raster_layers O g up = Ok (ln, fn) -> ln = ["intensity"] /\ fn = ["Intensity"].
  Proof. unfold raster_layers. intros ->. cbn [negb andb]. by intros [= <- <-]. Qed.
  (** Refused exactly when there is no depth layer to turn into elevations. *)
  Lemma raster_layers_refused up x : raster_layers O g up = Raise x <-> (x = ValueError /\ m_backscatter (g_meta g) = false /\ up = true /\ "depth" ∉ g_layer_names O g).
  Proof.
    unfold raster_layers. destruct (m_backscatter (g_meta g)); cbn [negb andb]; [naive_solver|]. destruct up; [|naive_solver]. rewrite depth_layers_eq.
    assert (E : "Depth" ∈ map band_name (depth_layers (g_layer_names O g)) <-> "depth" ∈ g_layer_names O g).
    { rewrite elem_of_list_fmap. unfold depth_layers. setoid_rewrite elem_of_list_filter. split.
      - by intros (l & El & [->|[->| ->]] & Hl).
      - intros Hl. exists "depth". split; [done|]. split; [by left|done]. }
    case_bool_decide as H; rewrite E in H; naive_solver.
  Qed.
End names.

(** Every container gets one entry, its own or that of the container with '_0' appended. *)
Lemma attribution_all m : dkeys (m_timestamp m) = dkeys (m_container m) -> NoDup (dkeys (m_container m)) ->
  exists d, m_return_attribution m = Ok d /\ dkeys d = dkeys (m_container m) /\
    forall c v, dget d c = Some v -> exists k, (k = c \/ k = c +:+ "_0") /\ dget (m_timestamp m) k = Some v.1 /\ dget (m_container m) k = Some v.2.
Proof.
  intros Hk Hn. unfold m_return_attribution. rewrite (unique_containers _ Hn).
  set (P := fun d : dict string (string * list string) => forall c v, dget d c = Some v -> exists k, (k = c \/ k = c +:+ "_0") /\ dget (m_timestamp m) k = Some v.1 /\ dget (m_container m) k = Some v.2).
  enough (H : forall ks d, (forall k, k ∈ ks -> k ∈ dkeys (m_container m)) -> NoDup (dkeys d ++ ks) -> P d ->
    exists d', foldl (attribution_step m) (Ok d) ks = Ok d' /\ dkeys d' = dkeys d ++ ks /\ P d').
  { destruct (H (dkeys (m_container m)) []) as (d' & E & HP & HQ); [done|done|by intros ? ? ?|]. eauto. }
  induction ks as [|k ks IH]; intros d Hks Hd HP; cbn [foldl]; [exists d; by rewrite app_nil_r|].
  assert (Hki : k ∈ dkeys (m_container m)) by (apply Hks; left).
  assert (Hnew : k ∉ dkeys d) by (apply NoDup_app in Hd as (_ & Hd & _); intros Hin; apply (Hd k Hin); left).
  assert (Hstep : exists v, attribution_step m (Ok d) k = Ok (dset d k v) /\ exists k', (k' = k \/ k' = k +:+ "_0") /\ dget (m_timestamp m) k' = Some v.1 /\ dget (m_container m) k' = Some v.2).
  { unfold attribution_step. cbn [rbind]. cbv zeta. pose proof Hki as [lk Elk]%dget_is_Some. rewrite <- Hk in Hki. pose proof Hki as [tk Etk]%dget_is_Some.
    destruct (dget (m_timestamp m) (k +:+ "_0")) as [t0|] eqn:E1; [destruct (dget (m_container m) (k +:+ "_0")) as [l0|] eqn:E2|].
    - eexists. split; [done|]. exists (k +:+ "_0"). split; [by right|done].
    - rewrite Etk, Elk. eexists. split; [done|]. exists k. split; [by left|done].
    - rewrite Etk, Elk. eexists. split; [done|]. exists k. split; [by left|done]. }
  destruct Hstep as (v & -> & Hv). assert (Hkeys : dkeys (dset d k v) = dkeys d ++ [k]) by (by rewrite dkeys_dset, decide_False).
  destruct (IH (dset d k v)) as (d' & E & HK & HQ).
  - intros j Hj. apply Hks. by right.
  - rewrite Hkeys, <- app_assoc. exact Hd.
  - intros c w. rewrite dget_dset. destruct (decide (c = k)) as [->|]; [intros [= <-]; exact Hv|apply HP].
  - exists d'. split; [done|]. split; [|done]. by rewrite HK, Hkeys, <- app_assoc.
Qed.

Lemma Ok_inj {A} (a b : A) : Ok a = Ok b -> a = b.
Proof. congruence. Qed.
(** Where the line of get_tile_boundaries starts and ends, and how many points it has. *)
Lemma concat_length_const {A B} (h : A -> list B) (l : list A) n : (forall a, length (h a) = n) -> length (concat (map h l)) = (n * length l)%nat.
Proof. intros H. induction l as [|a l IH]; cbn [map concat length]; [lia|]. rewrite app_length, H, IH. lia. Qed.
Lemma boundaries_ends {T} (g : grid T) s lx ly nx ny pts : m_tile_size (g_meta g) = s ->
  g_geom g = Some (std_geom lx ly s nx ny) -> m_ext (g_meta g) = Some (Ext lx ly (lx + Z.of_nat nx * s) (ly + Z.of_nat ny * s)) -> g_tile_boundaries g = Ok pts ->
  head pts = Some (lx, ly) /\ last pts = Some (lx + Z.of_nat nx * s, ly + Z.of_nat ny * s) /\ length pts = ((5 * S nx + 1) * S ny)%nat.
Proof.
  intros Hm Hg He. unfold g_tile_boundaries. rewrite Hg, He, Hm. cbn [rofopt rbind std_geom gex gey].
  destruct (rows_line s lx ly nx ny) as (_ & H2 & H3). cbv zeta in H2, H3. set (l := concat _) in *. rewrite H3. cbn [fst y1]. intros Hp. apply Ok_inj in Hp. subst pts.
  assert (Hl : length l = ((5 * S nx + 1) * S ny)%nat).
  { unfold l. rewrite (concat_length_const _ _ (5 * S nx + 1)%nat), uniform_length; [done|]. intros y. unfold outline_row. rewrite app_length, (concat_length_const _ _ 5%nat) by done.
    rewrite uniform_length. replace (last (uniform lx s (S nx))) with (Some (lx + Z.of_nat nx * s)) by (rewrite uniform_S; by rewrite last_snoc). done. }
  clearbody l. split; [|split].
  - destruct l as [|a [|b l']] eqn:El; [done|cbn in Hl; nia|]. cbn [length]. replace (S (S (length l')) - 1)%nat with (S (length l')) by lia. cbn [take app head]. exact H2.
  - apply last_snoc.
  - rewrite app_length, take_length, Hl. cbn [length]. nia.
Qed.
