(** The flags of a grid: point_count_changed after adding points, no_grid after gridding. *)
From Verif Require Import Py Nd Numpy Point Bin Algorithms Tile Time Meta Disk Grid GridRun GridQuery GridOps Spec TileExec GridExec.
From Verif Require Import PyFacts NdFacts NumpyFacts AlgFacts BinFacts TileFacts TileGridFacts TileSpecFacts TileRunFacts TileHistFacts ShoalFacts TilePropFacts TileQueryFacts
  GridBaseFacts GridPlaceFacts GridInvFacts GridRootFacts GridEvolveFacts GridSrFacts GridPropFacts GridHistFacts GridRunFacts GridCleanFacts
  GridUpdateFacts GridDensityFacts.
Open Scope Z_scope.

(** ** point_count_changed *)
Section flag.
  Context {T : Type} (m0 : gmeta) (rep rep' : T -> Z -> Z -> content -> Prop).
  Notation s := (m_tile_size m0).
  Lemma placed_mono g ct lx ly nx ny a :
    (forall t x y, rep t x y (content_in x y s ct) -> rep' t x y (content_in x y s ct)) ->
    placed m0 rep g ct lx ly nx ny a -> placed m0 rep' g ct lx ly nx ny a.
  Proof.
    intros H [P1 P2 P3 P4 P5 P6 [P7 P7'] P8]. split; try done. split; [done|]. intros r c Hr Hc.
    destruct (P7' r c Hr Hc) as (o & Ho & Hsl). exists o. split; [done|]. destruct o as [t|]; [|done].
    destruct Hsl as [H1 H2]. split; [done|]. by apply H.
  Qed.
  Lemma root_mono g ct seen ok :
    (forall t x y, rep t x y (content_in x y s ct) -> rep' t x y (content_in x y s ct)) ->
    root_inv m0 rep g ct seen ok -> root_inv m0 rep' g ct seen ok.
  Proof.
    intros H [B [E|(Hne & lx & ly & nx & ny & a & P & R)]]; (split; [done|]); [by left|right].
    split; [done|]. exists lx, ly, nx, ny, a. split; [by apply placed_mono|done].
  Qed.
  Lemma child_mono X Y W g ct :
    (forall t x y, rep t x y (content_in x y s ct) -> rep' t x y (content_in x y s ct)) ->
    child_inv m0 rep X Y W g ct -> child_inv m0 rep' X Y W g ct.
  Proof.
    intros H [B [E|(Hne & a & P & R)]]; (split; [done|]); [by left|right].
    split; [done|]. exists a. split; [by apply placed_mono|done].
  Qed.
End flag.

Section changed.
  Context (c : string).
  Definition flag_rep (s : Z) (b : bool) (t : tile) (x y : Z) (ct : content) : Prop :=
    sr_rep s b t x y ct /\ (c ∈ ct.*1 -> t_changed t = true).
  Lemma add_changed t d c' : t_changed (t_add_points t d c') = true.
  Proof. unfold t_add_points. destruct (t_data t); [|done]. by rewrite clear_temp_all_eq. Qed.
  Lemma remove_changed t c' : t_changed t = true -> t_changed (t_remove_points t c') = true.
  Proof. unfold t_remove_points. destruct (dget _ _) as [[]|]; [|done]. destruct (t_data t); [|done]. cbv zeta. by rewrite clear_temp_all_eq. Qed.
  Lemma drop_c_keys (ct : content) c' k : k ∈ (drop_c ct c').*1 -> k ∈ ct.*1.
  Proof.
    unfold drop_c. intros ([k' d] & -> & H)%elem_of_list_fmap. apply elem_of_list_filter in H as [_ H].
    apply elem_of_list_fmap. by exists (k', d).
  Qed.
  Lemma flag_laws m0 : tile_laws sr_ops m0 (flag_rep (m_tile_size m0) (m_backscatter m0)).
  Proof.
    pose proof (sr_laws m0) as L. split.
    - intros m disk x y F. split; [by apply (tl_build _ _ _ L)|]. intros H. by apply not_elem_of_nil in H.
    - intros t x y ct d a [H1 H2] Hd Hin Hf Hn. destruct (tl_add _ _ _ L t x y ct d a H1 Hd Hin Hf Hn) as [A1 A2].
      split; [done|]. split; [done|]. intros _. apply add_changed.
    - intros t x y ct c' [H1 H2]. destruct (tl_remove _ _ _ L t x y ct c' H1) as [A1 A2].
      split; [done|]. split; [done|]. intros Hc%drop_c_keys. apply remove_changed. by apply H2.
    - intros t x y ct [H1 _]. by apply (tl_empty _ _ _ L t x y ct).
    - intros t x y ct [H1 _]. by apply (tl_count _ _ _ L t x y ct).
    - intros md t x y ct [H1 H2]. split; [by apply (tl_reload _ _ _ L md t x y ct)|]. intros Hc. cbn. unfold t_reload. destruct (saves_grid md); by apply H2.
  Qed.

  Context (size sub : Z) (b zarr : bool) (Hsize : 0 < size) (Hsub : 0 < sub).
  Definition flag_sub (g : grid tile) (x y : Z) (ct : content) : Prop :=
    child_inv (sub0 size sub b zarr x y) (flag_rep sub false) x y size g ct.
  Lemma flag_sub_laws : tile_laws vr_ops (new_vr_meta 0 0 size sub b zarr) flag_sub.
  Proof using Hsize Hsub.
    assert (Li : forall x y, tile_laws sr_ops (sub0 size sub b zarr x y) (flag_rep sub false)) by (intros; apply (flag_laws (sub0 size sub b zarr x y))).
    split.
    - intros m d x y F. cbn. rewrite (sub_meta_frame _ _ _ _ _ _ _ F). by apply child_new.
    - intros g x y ct d a H Hd Hin Hf Hn. cbn.
      destruct (child_add sr_ops (sub0 size sub b zarr x y) _ (Li x y) Hsub eq_refl x y size Hsize eq_refl g ct d a) as (H1 & H2 & _); done.
    - intros g x y ct c' H. cbn. by apply (child_remove sr_ops (sub0 size sub b zarr x y) _ (Li x y) Hsub x y size g ct c').
    - intros g x y ct [B [(H1 & -> & _)|(H1 & a & H2 & _)]]; cbn.
      + unfold g_is_empty. by rewrite H1.
      + destruct H2 as [P1 P2 P3 P4 P5 P6 P7 P8].
        rewrite (slots_is_empty (sub0 size sub b zarr x y) _ Hsub g ct _ _ _ _ a P4 P7 P8); [|apply B].
        apply bool_decide_ext. symmetry. apply all_points_nil_iff. apply B.
    - intros g x y ct [B [(H1 & -> & _)|(H1 & a & H2 & _)]]; cbn.
      + unfold g_points_count, live_tiles. by rewrite H1.
      + destruct H2 as [P1 P2 P3 P4 P5 P6 P7 P8].
        exact (slots_count sr_ops (sub0 size sub b zarr x y) _ (Li x y) Hsub g a _ _ _ _ ct P4 P7 P8).
    - done.
  Qed.
End changed.

(** Where the new container has points there is a tile whose content mentions it. *)
Lemma content_in_new x y s (ct : content) c d p : p ∈ d -> in_square x y s (px p) (py p) ->
  c ∈ (content_in x y s (ct ++ [(c, d)])).*1.
Proof.
  intros Hp Hin. destruct (filter (fun p => in_square x y s (px p) (py p)) d) as [|q l] eqn:E.
  - exfalso. assert (H : p ∈ @nil point) by (rewrite <- E; by apply elem_of_list_filter). by apply not_elem_of_nil in H.
  - rewrite content_in_cons_app by (rewrite E; done). rewrite fmap_app. apply elem_of_app. right. cbn. left.
Qed.
Lemma tile_at_live {T} (g : grid T) k t : tile_at g k = Some t -> t ∈ live_tiles g.
Proof.
  unfold live_tiles, tile_at. destruct (g_tiles g) as [a|]; [|done]. intros H. apply elem_of_list_omap. exists (Some t). split; [|done].
  destruct (nflat a !! k) as [o|] eqn:E; [|done]. cbn in H. subst o. by eapply elem_of_list_lookup_2.
Qed.
Lemma live_changed {T} (O : tile_ops T) (g : grid T) k t : tile_at g k = Some t -> op_changed O t = true -> g_changed O g = true.
Proof.
  intros Ht Hc. unfold g_changed. apply existsb_exists. exists t. split; [|done]. apply elem_of_list_In. by eapply tile_at_live.
Qed.

Lemma sr_add_changed e size b zarr disk g ct seen ok d a :
  0 < size -> sr_history e size b zarr disk g ct seen ok -> d <> [] -> exn_of (g_add_points sr_ops g (GoodData d) a) = None ->
  g_changed sr_ops (st_of (g_add_points sr_ops g (GoodData d) a)) = true.
Proof.
  intros Hs H Hd Hx. pose proof (sr_inv e size b zarr disk Hs _ _ _ _ H) as HI. set (c := a_container a).
  assert (Hc : c ∉ ct.*1).
  { destruct (root_add sr_ops _ _ (sr_laws (new_sr_meta 0 0 size b zarr)) Hs eq_refl eq_refl eq_refl g ct seen ok (GoodData d) a HI)
      as [(H1 & _)|(d' & m1 & _ & _ & Hf & _)]; [done|]. intros Hin. apply Hf. by apply (rb_keys _ _ _ (proj1 HI)). }
  assert (HI' : root_inv (new_sr_meta 0 0 size b zarr) (flag_rep c size b) g ct seen ok).
  { eapply root_mono; [|exact HI]. intros t x y Hr. split; [exact Hr|]. by intros Hin%content_in_keys. }
  destruct (root_add sr_ops _ _ (flag_laws c (new_sr_meta 0 0 size b zarr)) Hs eq_refl eq_refl eq_refl g ct seen ok (GoodData d) a HI')
    as [(H1 & _)|(d' & m1 & [= <-] & _ & _ & _ & _ & HN & _)]; [done|].
  destruct d as [|p d]; [done|].
  destruct (root_cover (new_sr_meta 0 0 size b zarr) (flag_rep c size b) Hs _ _ _ _ p HN) as (k & x & y & Ho & Hin & _).
  { rewrite all_points_snoc. apply elem_of_app. right. left. }
  pose proof (root_loc _ _ _ _ _ _ _ _ _ HN Ho) as HL. destruct (tile_at _ k) as [t|] eqn:Ht.
  - destruct HL as [_ [_ HL]]. eapply live_changed; [exact Ht|]. cbn. apply HL. eapply content_in_new; [|exact Hin]. left.
  - exfalso. pose proof (content_in_new x y size ct c (p :: d) p (elem_of_list_here _ _) Hin) as HC. cbn in HL.
    change (a_container a) with c in HL. rewrite HL in HC. by apply not_elem_of_nil in HC.
Qed.
Lemma vr_add_changed e size sub b zarr disk g ct seen ok d a :
  0 < size -> 0 < sub -> vr_history e size sub b zarr disk g ct seen ok -> d <> [] -> exn_of (g_add_points vr_ops g (GoodData d) a) = None ->
  g_changed vr_ops (st_of (g_add_points vr_ops g (GoodData d) a)) = true.
Proof.
  intros Hs Hsub H Hd Hx. pose proof (vr_inv e size sub b zarr disk Hs Hsub _ _ _ _ H) as HI. set (c := a_container a).
  assert (Hc : c ∉ ct.*1).
  { destruct (root_add vr_ops _ _ (vr_laws size sub b zarr Hs Hsub) Hs eq_refl eq_refl eq_refl g ct seen ok (GoodData d) a HI)
      as [(H1 & _)|(d' & m1 & _ & _ & Hf & _)]; [done|]. intros Hin. apply Hf. by apply (rb_keys _ _ _ (proj1 HI)). }
  assert (HI' : root_inv (new_vr_meta 0 0 size sub b zarr) (flag_sub c size sub b zarr) g ct seen ok).
  { eapply root_mono; [|exact HI]. intros t x y Hr. eapply child_mono; [|exact Hr]. intros t' u v Hr'. split; [exact Hr'|].
    intros Hin%content_in_keys. by apply content_in_keys in Hin. }
  destruct (root_add vr_ops _ _ (flag_sub_laws c size sub b zarr Hs Hsub) Hs eq_refl eq_refl eq_refl g ct seen ok (GoodData d) a HI')
    as [(H1 & _)|(d' & m1 & [= <-] & _ & _ & _ & _ & HN & _)]; [done|].
  destruct d as [|p d]; [done|].
  destruct (root_cover (new_vr_meta 0 0 size sub b zarr) (flag_sub c size sub b zarr) Hs _ _ _ _ p HN) as (k & x & y & Ho & Hin & _).
  { rewrite all_points_snoc. apply elem_of_app. right. left. }
  pose proof (root_loc _ _ _ _ _ _ _ _ _ HN Ho) as HL.
  pose proof (content_in_new x y size ct c (p :: d) p (elem_of_list_here _ _) Hin) as HC. change (a_container a) with c in HL.
  cbn [m_tile_size new_vr_meta new_meta] in HL.
  destruct (tile_at _ k) as [sg|] eqn:Ht; [|cbn in HL; rewrite HL in HC; by apply not_elem_of_nil in HC].
  destruct HL as [Hne HL]. eapply live_changed; [exact Ht|]. cbn [vr_ops grid_ops op_changed].
  destruct HL as [_ [(_ & E & _)|(_ & a' & P & _)]]; [by rewrite E in HC; apply not_elem_of_nil in HC|].
  assert (Hp : p ∈ all_points (content_in x y size (ct ++ [(c, p :: d)]))).
  { rewrite content_in_points. apply elem_of_list_filter. split; [exact Hin|]. rewrite all_points_snoc. apply elem_of_app. right. left. }
  destruct (placed_cover (sub0 size sub b zarr x y) (flag_rep c sub false) Hsub _ _ _ _ _ _ _ p P Hp) as (j & u & v & Hj & Hin2 & _).
  pose proof (placed_loc _ _ _ _ _ _ _ _ _ _ _ _ P Hj) as HL2. cbn [m_tile_size] in HL2.
  assert (HC2 : c ∈ (content_in u v sub (content_in x y size (ct ++ [(c, p :: d)]))).*1).
  { destruct (filter (fun p => in_square x y size (px p) (py p)) (p :: d)) as [|q l] eqn:E.
    - exfalso. assert (Hq : p ∈ @nil point) by (rewrite <- E; apply elem_of_list_filter; split; [done|left]). by apply not_elem_of_nil in Hq.
    - rewrite (content_in_cons_app _ _ _ _ _ (p :: d)) by (rewrite E; done).
      eapply content_in_new; [|exact Hin2]. apply elem_of_list_filter. split; [done|left]. }
  destruct (tile_at sg j) as [t|] eqn:Hj2.
  - destruct HL2 as [_ [_ HL2]]. eapply live_changed; [exact Hj2|]. cbn. by apply HL2.
  - cbn in HL2. exfalso. change (m_tile_size (sub0 size sub b zarr x y)) with sub in HL2. rewrite HL2 in HC2. by apply not_elem_of_nil in HC2.
Qed.

(** ** no_grid *)
Lemma cells_keys (t t' : tile) : dkeys (t_cells t') = dkeys (t_cells t) -> t_cells t <> [] -> t_cells t' <> [].
Proof. intros H Hn E. rewrite E in H. destruct (t_cells t); done. Qed.
Lemma steps_gridded e Q x y s b t ct f : 0 < s -> tile_steps e Q x y s b t ct f -> f = false -> ct <> [] -> t_cells t <> [].
Proof.
  intros Hs. induction 1 as [|t ct f d c H IH Hd|t ct f c H IH|t ct f alg ro clear mode gp border t' r' H IH HA _ HC Hg|
    t ct f layer ro nodata up t' o H IH Hq|t ct f m H IH]; intros Hf Hne; try done.
  - apply orb_false_iff in Hf as [-> Hc]. apply bool_decide_eq_false in Hc. eapply cells_keys; [apply remove_keys|].
    rewrite drop_c_notin in Hne by done. by apply IH.
  - destruct (grid_density _ _ _ _ _ _ _ _ _ _ _ _ _ _ _ Hs (steps_reach _ _ _ _ _ _ _ _ _ H) HA HC Hg) as (_ & _ & l & ->).
    intros E. apply (f_equal (fun z => dget z r')) in E. by rewrite dget_dset_eq in E.
  - eapply cells_keys; [exact (query_keys _ _ _ _ _ _ _ _ Hq)|]. by apply IH.
  - eapply cells_keys; [apply reload_keys|]. by apply IH.
Qed.
Lemma unchanged_tile {T} (O : tile_ops T) (g : grid T) k t : g_changed O g = false -> tile_at g k = Some t -> op_changed O t = false.
Proof.
  intros H Ht. destruct (op_changed O t) eqn:E; [|done]. by rewrite (live_changed O g k t Ht E) in H.
Qed.

Lemma sr_grid_cells e (P : gargs -> Prop) size b zarr disk g ct : 0 < size -> (forall a, P a -> known_args a) ->
  sr_clean e P size b zarr disk g ct -> g_changed sr_ops g = false -> forall k t, tile_at g k = Some t -> t_cells t <> [].
Proof.
  intros Hs HP H Hc k t Ht.
  destruct (sr_clean_inv e (fun _ _ => True) P size b zarr disk Hs (fun a Pa => known_allows a (HP a Pa)) g ct H) as (_ & seen & ok & HI).
  destruct (root_rep _ _ _ _ _ _ _ _ HI Ht) as (x & y & ct' & (_ & (f & HT) & _) & Hne).
  eapply steps_gridded; [exact Hs|exact HT| |done].
  destruct (history_rep _ _ _ _ _ _ _ _ Hs (steps_history _ _ _ _ _ _ _ _ _ HT)) as [_ <-]. by eapply (unchanged_tile sr_ops).
Qed.
Lemma vr_grid_cells e (P : gargs -> Prop) size sub b zarr disk g ct : 0 < size -> 0 < sub -> (forall a, P a -> known_args a) ->
  vr_clean e P size sub b zarr disk g ct -> g_changed vr_ops g = false ->
  forall k sg, tile_at g k = Some sg -> (exists t, t ∈ live_tiles sg) /\ forall j t, tile_at sg j = Some t -> t_cells t <> [].
Proof.
  intros Hs Hsub HP H Hc k sg Hg.
  destruct (vr_clean_inv e (fun _ _ => True) P size sub b zarr disk Hs Hsub (fun a Pa => known_allows a (HP a Pa)) g ct H) as (_ & seen & ok & HI).
  destruct (root_rep _ _ _ _ _ _ _ _ HI Hg) as (x & y & ct' & (HC & _) & Hne).
  pose proof (unchanged_tile vr_ops g k sg Hc Hg) as Hc'. cbn [vr_ops grid_ops op_changed] in Hc'. split.
  - destruct HC as [CB [(_ & ? & _)|(_ & a & [P1 P2 P3 P4 P5 P6 P7 P8] & _)]]; [done|].
    destruct (slots_live (sub0 size sub b zarr x y) _ Hsub _ _ _ _ _ _ P7 P8) as (j & t & Hj); [rewrite all_points_nil_iff by apply CB; done|].
    exists t. unfold live_tiles. rewrite P4. apply elem_of_list_omap. exists (Some t). split; [|done]. by eapply elem_of_list_lookup_2.
  - intros j t Ht. destruct (child_rep _ _ _ _ _ _ _ _ _ HC Ht) as (u & v & ct2 & (_ & (f & HT) & _) & Hne2).
    eapply steps_gridded; [exact Hsub|exact HT| |done].
    destruct (history_rep _ _ _ _ _ _ _ _ Hsub (steps_history _ _ _ _ _ _ _ _ _ HT)) as [_ <-]. by eapply (unchanged_tile sr_ops).
Qed.

(** ** Arguments of the properties *)
Lemma simple_cases alg : alg = "mean" \/ alg = "shoalest" -> exists sa, alg = alg_name sa.
Proof. intros [->| ->]; [by exists Mean|by exists Shoalest]. Qed.
Lemma only_known alg r a : alg = "mean" \/ alg = "shoalest" -> only_args alg r a -> known_args a.
Proof. intros (sa & ->)%simple_cases [H _]. by eapply simple_known. Qed.
Lemma unchanged_skipped (g : sr_grid) a k t : ga_regrid a = "update" -> ga_clear a = false -> tile_at g k = Some t ->
  (forall j t', (j <= k)%nat -> tile_at g j = Some t' -> t_changed t' = false) ->
  skip_tile sr_ops a (clear_at sr_ops a (ga_clear a) (tile_list g) k) t = true.
Proof.
  intros Hr Hc Ht Hall. assert (E : clear_at sr_ops a (ga_clear a) (tile_list g) k = false).
  { unfold clear_at. rewrite Hc, Hr. cbn. apply not_true_iff_false. intros (t' & Hin & Hch)%existsb_exists.
    apply elem_of_list_In, elem_of_list_omap in Hin as (o & Ho & Hid). cbn in Hid. subst o. apply elem_of_list_lookup in Ho as [j Hj].
    assert (Hjk : (j < k)%nat). { apply lookup_lt_Some in Hj. rewrite take_length in Hj. lia. }
    rewrite lookup_take in Hj by done. cbn in Hch. rewrite (Hall j t') in Hch; [done|lia|]. by rewrite tile_list_at, Hj. }
  rewrite E. unfold skip_tile. rewrite Hr. cbn. by rewrite (Hall k t).
Qed.
Lemma all_unchanged (g : sr_grid) : (forall k t, tile_at g k = Some t -> t_changed t = false) -> g_changed sr_ops g = false.
Proof.
  intros H. apply not_true_iff_false. intros (t & Hin & Hc)%existsb_exists. apply elem_of_list_In, live_tile_at in Hin as [k Hk].
  cbn in Hc. by rewrite (H k t Hk) in Hc.
Qed.

(** ** Workers *)
Section dask.
  Context {T : Type} (O : tile_ops T) (e : env).
  Lemma plain_borders (g : grid T) a d1 d2 rez k t : ga_alg a <> "cube" -> borders O g a d1 rez k t = borders O g a d2 rez k t.
  Proof. intros H. unfold borders, border_for. by rewrite (bool_decide_eq_false_2 _ H). Qed.
  Lemma str_lower_nil s : str_lower s = "" -> s = "".
  Proof. by destruct s. Qed.
  Lemma same_buffer (g : grid T) a dask rez t : call_rez O e g a = Ok rez ->
    match ga_rez a with Some r => op_width O t <= 30 * r | None => ga_mode a <> "" end ->
    buffer O dask (grid_auto a) rez t = Ok (tenth_width O t).
  Proof.
    intros Hr H. unfold buffer. destruct dask; [|done]. unfold parallel_buffer, grid_auto. unfold call_rez in Hr.
    destruct (ga_rez a) as [r|].
    - injection Hr as <-. rewrite bool_decide_eq_true_2 by done. cbn [negb rofopt rbind]. f_equal. unfold qmin.
      assert (E : Qle_bool (tenth_width O t) (inject_Z (r * 3)) = true); [|by rewrite E].
      apply Qle_bool_iff. unfold tenth_width, Qle. cbn. lia.
    - rewrite bool_decide_eq_false_2; [done|]. intros Hl. by apply H, str_lower_nil.
  Qed.
  Lemma same_borders (g : grid T) a d1 d2 rez k t : call_rez O e g a = Ok rez ->
    match ga_rez a with Some r => op_width O t <= 30 * r | None => ga_mode a <> "" end ->
    borders O g a d1 rez k t = borders O g a d2 rez k t.
  Proof. intros Hr H. unfold borders. by rewrite !(same_buffer g a _ rez t Hr H). Qed.
End dask.
Lemma sr_dask e size b zarr disk g ct seen ok a d1 d2 : 0 < size -> sr_history e size b zarr disk g ct seen ok ->
  (forall rez k t, call_rez sr_ops e g a = Ok rez -> tile_at g k = Some t -> borders sr_ops g a d1 rez k t = borders sr_ops g a d2 rez k t) ->
  (exn_of (g_grid sr_ops e g a d1) = None <-> exn_of (g_grid sr_ops e g a d2) = None) /\
  (exn_of (g_grid sr_ops e g a d1) = None -> st_of (g_grid sr_ops e g a d1) = st_of (g_grid sr_ops e g a d2)).
Proof.
  intros Hs H HB. eapply (grid_dask sr_ops e tile_keeps tile_keeps_refl tile_keeps_trans (sr_grid_keeps e) sr_reload_keeps t_strip_keeps); [| | |exact HB].
  - exact (root_origins sr_ops _ _ _ _ _ _ (sr_inv e size b zarr disk Hs _ _ _ _ H)).
  - exact (root_tiles_known _ _ _ _ _ _ d1 (sr_inv e size b zarr disk Hs _ _ _ _ H)).
  - exact (root_tiles_known _ _ _ _ _ _ d2 (sr_inv e size b zarr disk Hs _ _ _ _ H)).
Qed.
Lemma vr_dask e size sub b zarr disk (g : vr_grid) ct seen ok a d1 d2 : 0 < size -> 0 < sub -> vr_history e size sub b zarr disk g ct seen ok ->
  (forall rez k t, call_rez vr_ops e g a = Ok rez -> tile_at g k = Some t -> borders vr_ops g a d1 rez k t = borders vr_ops g a d2 rez k t) ->
  (exn_of (g_grid vr_ops e g a d1) = None <-> exn_of (g_grid vr_ops e g a d2) = None) /\
  (exn_of (g_grid vr_ops e g a d1) = None -> st_of (g_grid vr_ops e g a d1) = st_of (g_grid vr_ops e g a d2)).
Proof.
  intros Hs Hsub H HB. eapply (grid_dask vr_ops e sub_keeps sub_keeps_refl sub_keeps_trans (vr_grid_keeps e) vr_reload_keeps g_strip_keeps); [| | |exact HB].
  2,3: exact (root_tiles_known _ _ _ _ _ _ _ (vr_inv e size sub b zarr disk Hs Hsub _ _ _ _ H)).
  apply vr_origins.
Qed.
Lemma sr_tile_width e size b zarr disk g ct seen ok k t : 0 < size -> sr_history e size b zarr disk g ct seen ok -> tile_at g k = Some t -> t_size t = size.
Proof.
  intros Hs H Ht. destruct (root_rep _ _ _ _ _ _ _ _ (sr_inv e size b zarr disk Hs _ _ _ _ H) Ht) as (x & y & ct' & (HQ & _) & _).
  by destruct HQ as (_ & _ & -> & _).
Qed.

(** ** Other facts about calls *)
Lemma ungridded_alg {T} (O : tile_ops T) e (g0 g : grid T) ct : clean_history O e (fun _ => False) g0 g ct -> m_algorithm (g_meta g) = m_algorithm (g_meta g0).
Proof.
  induction 1 as [|g ct d a H IH Hx|g ct inp a H IH Hx|g ct c H IH Hx|g ct a dask H IH Ha Hx|g ct layers rez nodata up g' o H IH Hq]; [done|..].
  - by rewrite (same_attrs_alg _ _ (add_attrs O g (GoodData d) a)).
  - by rewrite (same_attrs_alg _ _ (add_attrs O g inp a)).
  - by rewrite (same_attrs_alg _ _ (remove_attrs O g c)).
  - done.
  - by rewrite (query_meta _ _ _ _ _ _ _ _ _ Hq).
Qed.
Lemma root_live {T} (m0 : gmeta) (rep : T -> Z -> Z -> content -> Prop) g ct seen ok : 0 < m_tile_size m0 ->
  root_inv m0 rep g ct seen ok -> ct <> [] -> exists t, t ∈ live_tiles g.
Proof.
  intros Hs [B [(_ & E & _)|(_ & lx & ly & nx & ny & a & [P1 P2 P3 P4 P5 P6 P7 P8] & _)]] Hne; [done|].
  destruct (slots_live m0 _ Hs _ _ _ _ _ _ P7 P8) as (j & t & Hj); [rewrite all_points_nil_iff by apply B; done|].
  exists t. unfold live_tiles. rewrite P4. apply elem_of_list_omap. exists (Some t). split; [|done]. by eapply elem_of_list_lookup_2.
Qed.
Lemma rmap_elem {A B} (f : A -> res B) l : forall bs, rmap f l = Ok bs -> (forall a, a ∈ l -> exists b, f a = Ok b /\ b ∈ bs) /\ (forall b, b ∈ bs -> exists a, a ∈ l /\ f a = Ok b).
Proof.
  induction l as [|a l IH]; intros bs; cbn [rmap].
  - intros [= <-]. split; intros ? H%not_elem_of_nil; done.
  - intros (b & Hb & H)%rbind_Ok. apply rbind_Ok in H as (bs' & Hbs & H). injection H as <-. destruct (IH _ Hbs) as [I1 I2]. split.
    + intros a' [->|H]%elem_of_cons; [exists b; split; [done|left]|]. destruct (I1 a' H) as (b' & ? & ?). exists b'. split; [done|by right].
    + intros b' [->|H]%elem_of_cons; [exists a; split; [left|done]|]. destruct (I2 b' H) as (a' & ? & ?). exists a'. split; [by right|done].
Qed.
Lemma density_coarsest {T} (O : tile_ops T) e (g : grid T) r : (exists t, t ∈ live_tiles g) -> g_resolution_by_density O e g = Ok r ->
  (exists k t, tile_at g k = Some t /\ op_density_rez O e t = Ok r) /\
  (forall k t, tile_at g k = Some t -> exists r', op_density_rez O e t = Ok r' /\ r' <= r).
Proof.
  intros [t0 Ht0] H. unfold g_resolution_by_density in H. apply rbind_Ok in H as (rs & Hrs & H). injection H as H.
  destruct (rmap_elem _ _ _ Hrs) as [H1 H2]. destruct (H1 t0 Ht0) as (r0 & _ & Hr0).
  destruct (zmax rs) as [m|] eqn:Hm.
  - cbn in H. subst m. split.
    + destruct (H2 r (zmax_in _ _ Hm)) as (t & Ht & Hr). apply live_tile_at in Ht as [k Hk]. eauto.
    + intros k t Hk. destruct (H1 t (tile_at_live _ _ _ Hk)) as (r' & Hr' & Hin). exists r'. split; [done|]. by apply (zmax_ge rs).
  - exfalso. destruct rs; [by apply not_elem_of_nil in Hr0|done].
Qed.
Lemma density_legal e t r : t_resolution_by_density e t None None = Ok r ->
  r <= t_size t /\ (r = t_size t \/ exists k v, (k, v) ∈ documented_bands /\ r = v * e_tpq e).
Proof.
  intros H. apply density_resolution_legal in H as [H1 [H2|H2]]; (split; [done|]); [by left|right].
  unfold rez_options in H2. apply elem_of_list_fmap in H2 as ([k v] & -> & H2). by exists k, v.
Qed.
Lemma live_first {T} (g : grid T) t l : live_tiles g = t :: l -> exists k, tile_at g k = Some t.
Proof. intros H. apply live_tile_at. rewrite H. left. Qed.
Lemma sr_no_grid_false (g : sr_grid) : (forall k t, tile_at g k = Some t -> t_cells t <> []) -> g_tiles g <> None -> g_no_grid sr_ops g = Ok false.
Proof.
  intros H Ht. unfold g_no_grid. destruct (g_tiles g) eqn:E; [|done]. destruct (live_tiles g) as [|t l] eqn:El; [done|].
  destruct (live_first _ _ _ El) as [k Hk]. cbn. specialize (H k t Hk). by destruct (t_cells t).
Qed.
Lemma sr_no_grid_true (g : sr_grid) : g_tiles g = None \/ (exists t, t ∈ live_tiles g) -> (forall k t, tile_at g k = Some t -> t_cells t = []) -> g_no_grid sr_ops g = Ok true.
Proof.
  intros Ht H. unfold g_no_grid. destruct (g_tiles g) eqn:E; [|done]. destruct Ht as [?|[t0 Ht0]]; [done|].
  destruct (live_tiles g) as [|t l] eqn:El; [by apply not_elem_of_nil in Ht0|].
  destruct (live_first _ _ _ El) as [k Hk]. cbn. by rewrite (H k t Hk).
Qed.
Lemma vr_no_grid_false (g : vr_grid) : g_tiles g <> None ->
  (forall k sg, tile_at g k = Some sg -> (exists t, t ∈ live_tiles sg) /\ forall j t, tile_at sg j = Some t -> t_cells t <> []) -> g_no_grid vr_ops g = Ok false.
Proof.
  intros Ht H. unfold g_no_grid. destruct (g_tiles g) eqn:E; [|done]. destruct (live_tiles g) as [|sg l] eqn:El; [done|].
  destruct (live_first _ _ _ El) as [k Hk]. destruct (H k sg Hk) as [[t0 H0] H1]. cbn [vr_ops grid_ops op_probe]. unfold g_probe.
  destruct (last (live_tiles sg)) as [t|] eqn:L; [|apply last_None in L; rewrite L in H0; by apply not_elem_of_nil in H0].
  apply last_Some_elem_of in L. apply live_tile_at in L as [j Hj]. cbn. specialize (H1 j t Hj). by destruct (t_cells t).
Qed.
Lemma done_tiles {T} (O : tile_ops T) e (g : grid T) a dask : exn_of (g_grid O e g a dask) = None -> g_tiles g <> None.
Proof.
  intros Hx E. pose proof (g_grid_calls O e g a dask) as H. destruct (mismatch g a); [by rewrite H in Hx|].
  assert (Ee : g_is_empty g = true) by (unfold g_is_empty; by rewrite E). rewrite Ee in H. congruence.
Qed.
Lemma changed_some {T} (O : tile_ops T) (g : grid T) : g_changed O g = true <-> exists k t, tile_at g k = Some t /\ op_changed O t = true.
Proof.
  split.
  - intros (t & Hin & Hc)%existsb_exists. apply elem_of_list_In, live_tile_at in Hin as [k Hk]. eauto.
  - intros (k & t & Hk & Hc). by eapply live_changed.
Qed.

(** grid() returned normally: there are tiles afterwards. *)
Lemma sr_done_some e m0 rep (g : sr_grid) ct seen ok a dask : 0 < m_tile_size m0 ->
  root_inv m0 rep g ct seen ok -> exn_of (g_grid sr_ops e g a dask) = None -> g_tiles (st_of (g_grid sr_ops e g a dask)) <> None.
Proof.
  intros Hs HI Hx E. pose proof (root_origins sr_ops _ _ _ _ _ _ HI) as HO. pose proof (done_tiles _ _ _ _ _ Hx) as Hn.
  assert (Hne : ct <> []) by (destruct HI as [_ [(E1 & _)|(H & _)]]; done).
  destruct (root_live _ _ _ _ _ _ Hs HI Hne) as [t [k Hk]%live_tile_at].
  destruct (sr_done_tile e g a dask HO Hx) as (rez & _ & H). destruct (H k t Hk) as (t' & Ht & _).
  unfold tile_at, tile_list in Ht. by rewrite E in Ht.
Qed.
Lemma vr_done_some e m0 rep (g : vr_grid) ct seen ok a dask : 0 < m_tile_size m0 ->
  root_inv m0 rep g ct seen ok -> exn_of (g_grid vr_ops e g a dask) = None -> g_tiles (st_of (g_grid vr_ops e g a dask)) <> None.
Proof.
  intros Hs HI Hx E. pose proof (done_tiles _ _ _ _ _ Hx) as Hn.
  assert (Hne : ct <> []) by (destruct HI as [_ [(E1 & _)|(H & _)]]; done).
  destruct (root_live _ _ _ _ _ _ Hs HI Hne) as [t [k Hk]%live_tile_at].
  destruct (vr_done_tile e g a dask Hx) as (rez & _ & H). destruct (H k t Hk) as (t' & Ht & _).
  unfold tile_at, tile_list in Ht. by rewrite E in Ht.
Qed.
