(** Variable resolution grids that are saved, loaded and worked on again (C112). *)
From Verif Require Import Py Nd Numpy Point Bin Algorithms Tile Time Meta Disk Grid GridRun GridQuery GridOps Export Spec TileExec GridExec WholeSpec Store StoreExec SessionSpec.
From Verif Require Import PyFacts NdFacts NumpyFacts BinFacts TileFacts TileGridFacts TileSpecFacts TileRunFacts TileHistFacts TilePropFacts TileQueryFacts.
From Verif Require Import GridBaseFacts GridPlaceFacts GridInvFacts GridRootFacts GridEvolveFacts GridSrFacts GridPropFacts GridHistFacts GridRunFacts GridCleanFacts GridUpdateFacts GridCountFacts.
From Verif Require Import GridDensityFacts GridFlagFacts GridLayerFacts GridReadFacts GridAnswerFacts GridWholeFacts.
From Verif Require Import FsFacts TileStoreFacts CrashFacts GridStoreFacts GridLoadFacts GridReachFacts GridVrFacts GridSessionFacts.
Open Scope Z_scope.

(** ** One sub-grid *)
Lemma child_unmasked {T} (m0 : gmeta) (rep : T -> Z -> Z -> content -> Prop) X Y W g ct mk dk :
  mask_clear mk -> child_inv m0 rep X Y W g ct -> child_inv m0 rep X Y W (g <| g_mask := mk |> <| g_disk := dk |>) ct.
Proof.
  intros Hm [[B1 B2 B3 B4 B5 B6 B7 B8] Hst]. split; [by split|]. destruct Hst as [H|(Hne & a & [P1 P2 P3 P4 P5 P6 P7 P8] & F)]; [by left|].
  right. split; [done|]. exists a. split; [by split|]. done.
Qed.
(** What loading a sub-grid gives. *)
Record sub_loaded (sg sg' : sr_grid) : Prop := {
  sl_geom : g_geom sg' = g_geom sg; sl_meta : g_meta sg' = g_meta sg; sl_mask : g_mask sg' = Some (default (Nd 0 0 []) (g_mask sg));
  sl_tiles : tiles_rel reloaded (g_tiles sg) (g_tiles sg') }.

Section vr.
  Context (e : env) (Q : option (simple_algorithm * Z)) (size sub : Z) (b zarr : bool) (Hsize : 0 < size) (Hsub : 0 < sub).
  Notation m0 := (new_vr_meta 0 0 size sub b zarr).
  Notation srep := (sess_rep e Q sub false).
  Notation sub0 := (sub0 size sub b zarr).
  Definition vsess_rep (alg : string) (sg : grid tile) (x y : Z) (ct : content) : Prop :=
    child_inv (sub0 x y) (srep (m_algorithm (g_meta sg))) x y size sg ct /\ sub_alg_is sg alg.
  Lemma vsess_sub_laws alg x y : tile_laws sr_ops (sub0 x y) (srep alg).
  Proof using Hsub. by apply sess_laws. Qed.

  Lemma vsess_laws alg : tile_laws vr_ops m0 (vsess_rep alg).
  Proof using Hsize Hsub.
    split.
    - intros m d x y F. cbn. rewrite (sub_meta_frame _ _ _ _ _ _ _ F). split; [by apply child_new|]. by left.
    - intros g x y ct d a (H & HA) Hd Hin Hf Hn. cbn. unfold vsess_rep, sub_alg_is.
      rewrite (same_attrs_alg _ _ (add_attrs sr_ops g (GoodData d) a)).
      destruct (child_add sr_ops (sub0 x y) _ (vsess_sub_laws (m_algorithm (g_meta g)) x y) Hsub eq_refl x y size Hsize eq_refl g ct d a) as (H1 & H2 & _); [done..|]. done.
    - intros g x y ct c (H & HA). cbn. unfold vsess_rep, sub_alg_is. rewrite (same_attrs_alg _ _ (remove_attrs sr_ops g c)).
      destruct (child_remove sr_ops (sub0 x y) _ (vsess_sub_laws (m_algorithm (g_meta g)) x y) Hsub x y size g ct c) as [H1 H2]; [done|]. done.
    - intros g x y ct [[B [(H1 & -> & _)|(H1 & a & H2 & _)]] _]; cbn.
      + unfold g_is_empty. by rewrite H1.
      + destruct H2 as [P1 P2 P3 P4 P5 P6 P7 P8].
        rewrite (slots_is_empty (sub0 x y) _ Hsub g ct _ _ _ _ a P4 P7 P8); [|apply B].
        apply bool_decide_ext. symmetry. apply all_points_nil_iff. apply B.
    - intros g x y ct [[B [(H1 & -> & _)|(H1 & a & H2 & _)]] _]; cbn.
      + unfold g_points_count, live_tiles. by rewrite H1.
      + destruct H2 as [P1 P2 P3 P4 P5 P6 P7 P8].
        exact (slots_count sr_ops (sub0 x y) _ (vsess_sub_laws _ x y) Hsub g a _ _ _ _ ct P4 P7 P8).
    - done.
  Qed.
  (** The arguments sub-grids are called with. *)
  Lemma asked_nested g a rez bd : call_rez vr_ops e g a = Ok rez -> asked Q a -> asked Q (call_args vr_ops a (grid_auto a) rez (g_meta g) (ga_clear a) bd).
  Proof using.
    intros Hrez [H1 H2]. split; [exact H1|]. destruct Q as [[sa r]|]; [|done]. destruct H2 as [H2 H3]. unfold call_rez in Hrez. rewrite H3 in Hrez. injection Hrez as <-.
    split; [exact H2|]. unfold call_args. cbn [ga_rez]. by apply tile_rez_given.
  Qed.
  Lemma plain_nested g a rez bd sa r : call_rez vr_ops e g a = Ok rez -> plain_args sa r a -> plain_args sa r (call_args vr_ops a (grid_auto a) rez (g_meta g) (ga_clear a) bd).
  Proof using.
    intros Hrez [H2 H3]. unfold call_rez in Hrez. rewrite H3 in Hrez. injection Hrez as <-.
    split; [exact H2|]. unfold call_args. cbn [ga_rez]. by apply tile_rez_given.
  Qed.
  Lemma vsess_evolve g a dask : exn_of (g_grid vr_ops e g a dask) = None -> asked Q a ->
    let g' := st_of (g_grid vr_ops e g a dask) in
    evolve (carry (vsess_rep (m_algorithm (g_meta g))) (vsess_rep (ga_alg a))) g g' /\ m_algorithm (g_meta g') = ga_alg a.
  Proof using Hsize Hsub.
    intros Hx HA g'. pose proof (vr_finished e g a dask (vr_origins g) Hx) as D. split.
    2:{ destruct (gd_meta _ _ _ _ _ _ D) as (rz & Hm & _). unfold g'. by rewrite Hm. }
    apply (evolve_strengthen sub_keeps).
    { apply evolve_grid; [apply sub_keeps_refl|apply sub_keeps_trans|apply vr_grid_keeps|apply vr_reload_keeps]. }
    pose proof (mismatch_clear g a (gd_match _ _ _ _ _ _ D)) as HC.
    intros k t t' Ht Ht' x y ct (HR & HS).
    destruct (vr_done_tile e g a dask Hx) as (rez & Hrez & HT). destruct (HT k t Ht) as (t2 & Ht2 & H).
    unfold g' in Ht'. rewrite Ht2 in Ht'. injection Ht' as <-. destruct (skip_tile _ _ _ t) eqn:Hs.
    - destruct H as [-> _]. split; [done|]. destruct HS as [HS|[HS Hk]]; [by left|right].
      unfold skip_tile in Hs. apply andb_true_iff in Hs as [Hs _]. apply andb_true_iff in Hs as [_ Hs]. apply negb_true_iff in Hs.
      destruct (HC Hs) as [E|E]; [|by rewrite <- E]. rewrite E in Hk. by destruct Hk as [|[|]].
    - destruct H as (bd & Hb & H). cbv zeta in H. destruct H as (Hx2 & -> & _).
      pose proof (asked_nested g a rez bd Hrez HA) as HA'. set (a' := call_args _ _ _ _ _ _ _) in *.
      destruct (sess_evolve e Q sub false Hsub t a' None (child_origins _ _ _ _ _ _ _ _ HR) Hx2 HA') as [E EA].
      split.
      + rewrite EA. eapply child_evolve; [|exact E|exact HR]. intros t1 t2 u v c0 Hc Hr. by apply Hc.
      + right. split; [exact EA|]. by apply known_elem, HA.
  Qed.
  Lemma vsess_tiles alg sg x y ct : vsess_rep alg sg x y ct -> sess_tiles e Q sub false sg.
  Proof using. intros [H _] k t Ht. by eapply child_rep. Qed.

  (** ** Saving and loading *)
  Lemma vsess_sub_save alg sg x y ct F : vsess_rep alg sg x y ct -> ct <> [] ->
    exists sg', load_sr (fs_run F (ev_of (save_sr_to sg))) = Ok sg' /\ same_sub sg sg' /\ sub_loaded sg sg'.
  Proof using Hsize Hsub.
    intros HV Hct. pose proof HV as ([B [(_ & E & _)|(Hne & a & [P1 P2 P3 P4 P5 P6 P7 P8] & _ & Hw & Hh)]] & _); [done|].
    destruct (saved_loads sg F x y sub _ _ a Hsub P1 P2 P3 P4 P5 P6) as (g' & L1 & L2 & L3 & L4 & L5 & L6 & L7).
    { by destruct P7. }
    { intros k t Ht. destruct (vsess_tiles _ _ _ _ _ HV k t Ht) as (u & v & c0 & HR & Hn). apply (tidy_plain e); [apply HR|by eapply sess_has_data]. }
    { rewrite (cb_ext _ _ _ _ _ _ B), Hw, Hh. eauto. }
    exists g'. split; [exact L1|]. split; [by split|]. by split.
  Qed.
  Lemma vsess_load alg sg sg' : sub_loaded sg sg' -> carry (vsess_rep alg) (vsess_rep alg) sg sg'.
  Proof using.
    intros [L1 L2 L3 L4] x y ct [H HS]. split; [|unfold sub_alg_is in *; by rewrite L2]. rewrite L2.
    eapply (child_evolve (sub0 x y) _ _ reloaded _ x y size (sg <| g_mask := g_mask sg' |> <| g_disk := g_disk sg' |>)).
    - split; try done. cbn. rewrite L2. apply core_meta_refl.
    - apply child_unmasked; [|done]. rewrite L3. destruct H as [[_ _ Bm _ _ _ _ _] _]. by destruct (g_mask sg).
    Unshelve. intros t t' u v c0 HR. by apply sess_load.
  Qed.
  Lemma vsess_saved alg sg : carry (vsess_rep alg) (vsess_rep alg) sg (st_of (save_sr_to sg)).
  Proof using.
    intros x y ct [H HS]. split; [|exact HS]. assert (E : st_of (save_sr_to sg) = sg <| g_mask := g_mask sg |> <| g_disk := true |>) by (by destruct sg).
    rewrite E. apply child_unmasked; [|exact H]. apply H.
  Qed.
  Definition vsess_inv (g : vr_grid) (ct : content) : Prop := exists seen ok, root_inv m0 (vsess_rep (m_algorithm (g_meta g))) g ct seen ok.
  Lemma vsess_save g ct F : vsess_inv g ct -> ct <> [] ->
    (forall k x y, origin_at g k = Some (x, y) -> tile_at g k = None -> fs_exists F [FFolder (NTile x y)] = false) ->
    exn_of (save_vr_to g) = None /\
    exists g', load_vr (fs_run F (ev_of (save_vr_to g))) = Ok g' /\ same_tiles same_sub g g' /\ g_geom g' = g_geom g /\ g_meta g' = g_meta g /\ tiles_rel sub_loaded (g_tiles g) (g_tiles g') /\ vsess_inv g' ct.
  Proof using Hsize Hsub.
    intros (seen & ok & HI) Hne HF. pose proof HI as [_ [(_ & E & _)|(_ & lx & ly & nx & ny & a & [P1 P2 P3 P4 P5 P6 P7 P8] & (_ & _ & F3 & F4 & F5) & _)]]; [done|].
    split; [cbn; unfold save_exn; by rewrite P4|]. unfold save_vr_to. cbn [ev_of]. set (g1 := g <| g_disk := true |>). rewrite run_app.
    set (sv := fun o : option sr_grid => match o with Some sg => ev_of (save_sr_to sg) | None => [] end).
    set (f1 := fs_run F (save_grid g1)). assert (A1 : arrays_stored g1 (g_meta g1) f1) by (by apply save_grid_stored).
    assert (HD : distinct g1) by exact (std_distinct g1 lx ly size nx ny Hsize P3).
    destruct (load_grid_rel load_sub (fun sg sg' => same_sub sg sg' /\ sub_loaded sg sg') g1 (fs_run f1 (save_tiles g1 sv)) (g_meta g1) _ P3 (save_tiles_arrays _ _ _ _ A1))
      as (g' & L1 & L2 & L3 & L4 & L5 & L6).
    { intros k x y Ho. pose proof (std_origin_bound m0 lx ly nx ny k (x, y) g1 P3 Ho) as Hk.
      rewrite (save_tiles_sub g1 sv f1 k x y); [|done|done|].
      2:{ unfold tiles_size. cbn. rewrite P4. destruct P7 as [HL _]. rewrite HL. exact Hk. }
      change (tile_at g1 k) with (tile_at g k). destruct (tile_at g k) as [sg|] eqn:Et.
      - destruct (root_rep m0 _ _ _ _ _ _ _ HI Et) as (u & v & c0 & HR & Hn). destruct (vsess_sub_save _ sg u v c0 (fsub f1 (FFolder (NTile x y))) HR Hn) as (sg' & S1 & S2).
        exists (Some sg'). split; [by apply load_sub_Ok|done].
      - exists None. split; [|done]. cbn [sv fs_run foldl]. unfold load_sub. unfold f1. rewrite save_grid_folders. rewrite exists_fsub. by rewrite (HF k x y). }
    assert (Lm : g_meta g' = g_meta g) by (rewrite L3; apply loaded_meta_id; cbn; rewrite ?F3, ?F4, ?F5; eauto).
    exists g'. split; [exact L1|]. split.
    { destruct L6 as [S1 S2]. split; [|done]. intros x y t Ht. destruct (S1 x y t Ht) as (t' & H1 & H2 & _). by exists t'. }
    split; [exact L2|]. split; [exact Lm|].
    assert (HTR : tiles_rel sub_loaded (g_tiles g1) (g_tiles g')).
    { destruct (load_shape _ _ _ _ L1 (eq_trans L2 P3)) as (ts & T1 & T2). cbn [std_geom gx gy meshgrid_x meshgrid_y nrows ncols] in T1. rewrite !uniform_length in T1.
      apply (same_tiles_rel sub_loaded g1 g' a ts lx ly size nx ny); try done; [by destruct P7| |].
      - rewrite T2, zip_with_length, std_geom_len. pose proof (meshgrid_y_wf (uniform lx size nx) (uniform ly size ny)) as HL. unfold nd_wf in HL.
        change (nflat (gy (std_geom lx ly (m_tile_size m0) nx ny))) with (nflat (meshgrid_y (uniform lx size nx) (uniform ly size ny))). rewrite HL. cbn [meshgrid_y nrows ncols]. rewrite !uniform_length. lia.
      - destruct L6 as [S1 S2]. split; [|done]. intros x y t Ht. destruct (S1 x y t Ht) as (t' & H1 & _ & H2). by exists t'. }
    split; [exact HTR|]. exists seen, false. rewrite Lm.
    eapply (root_evolve m0 _ _ sub_loaded); [| |exact (root_unmasked _ _ _ _ _ _ (g_mask g') (g_disk g') HI)].
    { intros t t' x y c0 HR. by apply vsess_load. }
    split; try done. cbn. rewrite Lm. apply core_meta_refl.
  Qed.
  Lemma vsess_after_save g ct : vsess_inv g ct -> vsess_inv (st_of (save_vr_to g)) ct.
  Proof using.
    intros (seen & ok & HI). exists seen, false.
    assert (Em : g_meta (st_of (save_vr_to g)) = g_meta g) by (unfold save_vr_to; cbn; by destruct (g_tiles g)). rewrite Em.
    eapply (root_evolve m0 _ _ (carry (vsess_rep (m_algorithm (g_meta g))) (vsess_rep (m_algorithm (g_meta g)))));
      [| |exact (root_unmasked _ _ _ _ _ _ (g_mask g) true HI)].
    { intros t t' x y c0 HR. by apply HR. }
    unfold save_vr_to. cbn [st_of]. destruct g as [gm gg gk gt gd]. cbn. destruct gt as [a|]; cbn.
    - split; try done; [apply core_meta_refl|]. cbn. split; [done|]. split; [done|]. apply Forall2_fmap_r.
      induction (nflat a) as [|o l IH]; [constructor|]. constructor; [|exact IH]. destruct o as [sg|]; [|done]. exact (vsess_saved _ sg).
    - split; try done. apply core_meta_refl.
  Qed.
End vr.

Section sessions.
  Context (e : env) (Q : option (simple_algorithm * Z)) (P : gargs -> Prop) (size sub : Z) (b zarr : bool) (Hsize : 0 < size) (Hsub : 0 < sub).
  Context (HP : forall a, P a -> asked Q a).
  Notation m0 := (new_vr_meta 0 0 size sub b zarr).
  Notation rep := (vsess_rep e Q size sub b zarr).
  Lemma vr_sessions_inv g ct : vr_sessions e P size sub b zarr g ct -> vsess_inv e Q size sub b zarr g ct.
  Proof using Hsize Hsub HP.
    assert (L : forall alg, tile_laws vr_ops m0 (rep alg)) by (intros; by apply vsess_laws).
    induction 1 as [dk|g ct d a H IH Hx|g ct inp a H IH Hx|g ct c H IH Hx|g ct a dask' H IH Ha Hx|g ct H IH Hx|g ct F g' H IH Hx HF HL].
    - exists [], true. by apply root_new.
    - destruct IH as (seen & ok & IH). unfold vsess_inv. pose proof (add_attrs vr_ops g (GoodData d) a) as [A1 A2]. injection A1 as _ A1 _ _. rewrite A1.
      destruct (root_add vr_ops m0 _ (L _) Hsize eq_refl eq_refl eq_refl g ct seen ok (GoodData d) a IH) as [(H1 & _)|(d' & m1 & [= <-] & _ & _ & _ & _ & H2 & _)]; [done|]. eauto.
    - destruct IH as (seen & ok & IH). unfold vsess_inv. pose proof (add_attrs vr_ops g inp a) as [A1 A2]. injection A1 as _ A1 _ _. rewrite A1.
      destruct (root_add vr_ops m0 _ (L _) Hsize eq_refl eq_refl eq_refl g ct seen ok inp a IH) as [(H1 & H2 & _)|(d' & m1 & _ & _ & _ & _ & H1 & _)]; [eauto|done].
    - destruct IH as (seen & ok & IH). unfold vsess_inv. pose proof (remove_attrs vr_ops g c) as [A1 A2]. injection A1 as _ A1 _ _. rewrite A1.
      destruct (root_remove vr_ops m0 _ (L _) Hsize g ct seen ok c IH) as [_ H2]. destruct (H2 Hx) as [H3 _]. eauto.
    - destruct IH as (seen & ok & IH). unfold vsess_inv.
      destruct (vsess_evolve e Q size sub b zarr Hsize Hsub g a dask' Hx (HP _ Ha)) as [E ->].
      exists seen, ok. eapply root_evolve; [|exact E|exact IH]. intros t t' x y c0 Hc Hr. by apply Hc.
    - by apply vsess_after_save.
    - destruct (decide (ct = [])) as [->|Hne].
      + exfalso. destruct IH as (seen & ok & [_ [(H1 & _)|(? & _)]]); [|done]. cbn in Hx. unfold save_exn in Hx. by rewrite H1 in Hx.
      + destruct (vsess_save e Q size sub b zarr Hsize Hsub g ct F IH Hne HF) as (_ & g2 & L1 & _ & _ & _ & _ & L2). rewrite L1 in HL. by injection HL as <-.
  Qed.
  (** The points of the tiles of the sub-grids. *)
  Lemma vsess_location g ct x y sg j u v : vr_sessions e P size sub b zarr g ct -> has_tile g x y sg -> origin_at sg j = Some (u, v) ->
    let l := filter (fun p => in_square x y size (px p) (py p) /\ in_square u v sub (px p) (py p)) (all_points ct) in
    match tile_at sg j with Some t => t_data t = Some l /\ l <> [] | None => l = [] end.
  Proof using Hsize Hsub HP.
    intros H Hg Ho l. destruct (vr_sessions_inv g ct H) as (seen & ok & HI). destruct (root_has _ _ _ _ _ _ _ _ _ HI Hg) as [Hn1 [HC _]]. cbn [m_tile_size new_vr_meta new_meta] in *.
    assert (El : all_points (content_in u v sub (content_in x y size ct)) = l) by (by rewrite !content_in_points, filter_both).
    assert (HL : slot_ok (sess_rep e Q sub false (m_algorithm (g_meta sg))) u v (content_in u v sub (content_in x y size ct)) (tile_at sg j)).
    { destruct HC as [_ [(H1 & Hz & _)|(_ & a0 & HPl & _)]]; [done|]. exact (placed_loc _ _ _ _ _ _ _ _ _ _ _ _ HPl Ho). }
    destruct (tile_at sg j) as [t|] eqn:Ht; cbn in HL; [|by rewrite <- El, HL].
    destruct HL as (Hn2 & (_ & HT & _) & _). rewrite (rep_data _ _ HT Hn2), El. split; [done|].
    rewrite <- El. rewrite all_points_nil_iff; [done|]. apply content_in_nonempty.
  Qed.
  Lemma vsess_none g ct k x y : vr_sessions e P size sub b zarr g ct -> tile_at g k = None -> origin_at g k = Some (x, y) ->
    filter (fun p => in_square x y size (px p) (py p)) (all_points ct) = [].
  Proof using Hsize Hsub HP.
    intros H Hk Ho. destruct (vr_sessions_inv g ct H) as (seen & ok & HI).
    pose proof (root_loc _ _ _ _ _ _ _ _ _ HI Ho) as Hl. rewrite Hk in Hl. cbn in Hl. rewrite <- content_in_points. cbn in Hl. by rewrite Hl.
  Qed.
  Lemma vsess_frame g ct : size mod sub = 0 -> vr_sessions e P size sub b zarr g ct -> ct <> [] ->
    exists lx ly nx ny, frame g size ct lx ly nx ny /\
      (forall k sg, tile_at g k = Some sg ->
        sub_frame sg (lx + Z.of_nat (k mod nx) * size) (ly + Z.of_nat (k / nx) * size) sub (Z.to_nat (size / sub))).
  Proof using Hsize Hsub HP.
    intros Hm H Hne. destruct (vr_sessions_inv g ct H) as (seen & ok & HI).
    destruct (root_frame m0 _ _ _ _ _ Hsize HI Hne) as (lx & ly & nx & ny & HF).
    exists lx, ly, nx, ny. split; [exact HF|].
    intros k sg Hk. pose proof (fr_slot _ _ _ _ _ _ _ HF k (fr_tile _ _ _ _ _ _ _ HF _ _ Hk)) as Ho. cbn [m_tile_size new_vr_meta new_meta] in Ho.
    destruct (root_has _ _ _ _ _ _ _ _ _ HI (ex_intro _ k (conj Ho Hk))) as [Hc [HR _]].
    assert (E : size = Z.of_nat (Z.to_nat (size / sub)) * sub). { rewrite Z2Nat.id by (apply Z.div_pos; lia). pose proof (Z.div_mod size sub). lia. }
    assert (Hpos : (0 < Z.to_nat (size / sub))%nat). { destruct (Z.to_nat (size / sub)); lia. }
    exact (child_sub_frame (sub0 size sub b zarr _ _) _ _ _ _ _ _ _ Hsub Hpos E HR Hc).
  Qed.
  (** Gridding returns normally. *)
  Lemma vsess_total g ct sa r a dask : vr_sessions e P size sub b zarr g ct -> ct <> [] -> is_power_of_two (metres e r) = true -> plain_args sa r a ->
    (ga_clear a = true \/ m_algorithm (g_meta g) ∈ [""; alg_name sa]) -> exn_of (g_grid vr_ops e g a dask) = None.
  Proof using Hsize Hsub HP.
    intros H Hne Hp HPl Hm. destruct (vr_sessions_inv g ct H) as (seen & ok & HI). pose proof HPl as [Ha Hr].
    pose proof (allowed_again g a _ Ha Hm) as HM.
    apply (grid_total vr_ops e sub_keeps sub_keeps_refl sub_keeps_trans (vr_grid_keeps e) vr_reload_keeps g_strip_keeps g a dask (Some r));
      [apply vr_origins|by eapply root_tiles_known|done| |unfold call_rez; by rewrite Hr|].
    { rewrite (root_is_empty m0 _ Hsize _ _ _ _ HI). by apply bool_decide_eq_false_2. }
    intros k sg Ht. unfold entry_result, entry_at. cbn [en_k en_t en_run Nat.add]. destruct (skip_tile _ _ _ sg); [by eexists|].
    assert (Hb : borders vr_ops g a dask (Some r) k sg = Ok None).
    { unfold borders, border_for. rewrite bool_decide_eq_false_2; [done|]. rewrite Ha. by destruct sa. }
    rewrite Hb. cbn [rbind]. cbn [vr_ops grid_ops op_grid op_sr]. rewrite andb_false_r.
    assert (En : next_clear vr_ops a (ga_clear a) = ga_clear a). { unfold next_clear. cbn [vr_ops grid_ops op_sr]. by rewrite andb_false_r. }
    rewrite En. pose proof (plain_nested e g a (Some r) None sa r ltac:(unfold call_rez; by rewrite Hr) HPl) as HPl'. set (a' := call_args _ _ _ _ _ _ _) in *.
    destruct (root_rep _ _ _ _ _ _ _ _ HI Ht) as (x & y & ct' & HV & Hne'). pose proof HV as [HC HS].
    assert (Hx : exn_of (g_grid sr_ops e sg a' None) = None).
    { apply (sess_returns e Q sub false sg a' None sa r); [by eapply child_origins|apply tiles_known_none|by eapply vsess_tiles| | |done|done].
      - by rewrite (child_is_empty (sub0 size sub b zarr x y) _ _ _ _ _ _ Hsub HC), bool_decide_eq_false_2.
      - unfold mismatch, a', call_args. cbn [ga_alg ga_clear].
        destruct (ga_clear a) eqn:Hc; [by rewrite andb_false_r|]. destruct (mismatch_clear g a HM Hc) as [E|E]; destruct HS as [S|[S K]].
        + by rewrite S.
        + rewrite S. rewrite E. done.
        + by rewrite S.
        + rewrite S, E. by rewrite (bool_decide_eq_true_2 (ga_alg a = ga_alg a)), andb_false_r by done. }
    rewrite Hx. by eexists.
  Qed.
  (** After gridding with one of the simple algorithms at one resolution: in full mode any grid, in update mode
      one that was only gridded so before. *)
  Lemma vsess_current g ct sa r a dask : vr_sessions e P size sub b zarr g ct -> plain_args sa r a ->
    (Q = Some (sa, r) \/ ga_regrid a <> "update" \/ ga_clear a = true) -> exn_of (g_grid vr_ops e g a dask) = None ->
    forall k j sg t, tile_at (st_of (g_grid vr_ops e g a dask)) k = Some sg -> tile_at sg j = Some t -> current e sa r t.
  Proof using Hsize Hsub HP.
    intros H HPl HQ Hx k j sg' t Hk Hj. destruct (vr_sessions_inv g ct H) as (seen & ok & HI).
    destruct (tile_at g k) as [sg|] eqn:Hsg; [|by rewrite (gd_none _ _ _ _ _ _ (vr_finished e g a dask (vr_origins g) Hx) k Hsg) in Hk].
    destruct (root_rep _ _ _ _ _ _ _ _ HI Hsg) as (x & y & ct' & HV & Hne').
    destruct (vr_done_tile e g a dask Hx) as (rez & Hrez & HD). destruct (HD k sg Hsg) as (sg2 & Hk2 & HD2).
    rewrite Hk2 in Hk. injection Hk as ->. destruct (skip_tile _ _ _ sg) eqn:Hs.
    - destruct HD2 as [-> _]. unfold skip_tile in Hs. apply andb_true_iff in Hs as [Hs H3]. apply andb_true_iff in Hs as [H1 H2].
      apply bool_decide_eq_true in H1. apply negb_true_iff in H2, H3. cbn in H3. unfold g_changed in H3.
      destruct (vsess_tiles _ _ _ _ _ _ _ _ _ _ _ HV j t Hj) as (u & v & c0 & HR & Hn).
      assert (Hch : t_changed t = false).
      { apply not_true_iff_false. intros Hc. apply not_true_iff_false in H3. apply H3. apply existsb_exists. exists t. split; [|done].
        apply elem_of_list_In. by eapply tile_at_live. }
      pose proof (sess_has_data _ _ _ _ _ _ _ _ _ HR Hn) as Hd. destruct HR as (_ & _ & _ & HF). unfold fresh in HF.
      destruct HQ as [HQ|[?|?]]; [|done|congruence]. rewrite HQ in HF. by apply HF.
    - destruct HD2 as (bd & _ & Hx2 & -> & _). pose proof (plain_nested e g a rez bd sa r Hrez HPl) as HPl'. set (a' := call_args _ _ _ _ _ _ _) in *.
      eapply (sess_current e Q sub false Hsub sg a' None sa r); [|by eapply vsess_tiles|exact HPl'|exact HQ|exact Hx2|exact Hj].
      destruct HV as [HC _]. by eapply child_origins.
  Qed.
  Lemma vsess_reflects g ct sa r a dask : vr_sessions e P size sub b zarr g ct -> asked Q a -> plain_args sa r a ->
    (Q = Some (sa, r) \/ ga_regrid a <> "update" \/ ga_clear a = true) -> exn_of (g_grid vr_ops e g a dask) = None ->
    vr_reflects e (alg_name sa) r size sub ct (st_of (g_grid vr_ops e g a dask)).
  Proof using Hsize Hsub HP.
    intros H HA HPl HQ Hx. destruct (vr_sessions_inv g ct H) as (seen & ok & HI).
    destruct (vsess_evolve e Q size sub b zarr Hsize Hsub g a dask Hx HA) as [E Em].
    pose proof (vsess_current g ct sa r a dask H HPl HQ Hx) as HCur. set (g' := st_of (g_grid vr_ops e g a dask)) in *.
    assert (HI' : root_inv m0 (rep (ga_alg a)) g' ct seen ok) by (eapply root_evolve; [|exact E|exact HI]; intros t t' x y c0 Hc Hr; by apply Hc).
    intros x y sg' j u v Hg Ho here. destruct (root_has _ _ _ _ _ _ _ _ _ HI' Hg) as [Hn1 [HC _]]. cbn [m_tile_size new_vr_meta new_meta] in *.
    assert (El : all_points (content_in u v sub (content_in x y size ct)) = here) by (by rewrite !content_in_points, filter_both).
    assert (HL : slot_ok (sess_rep e Q sub false (m_algorithm (g_meta sg'))) u v (content_in u v sub (content_in x y size ct)) (tile_at sg' j)).
    { destruct HC as [_ [(H1 & Hz & _)|(_ & a0 & HPl' & _)]]; [done|]. exact (placed_loc _ _ _ _ _ _ _ _ _ _ _ _ HPl' Ho). }
    destruct (tile_at sg' j) as [t|] eqn:Ht; cbn in HL; [|by rewrite <- El, HL].
    destruct HL as (Hn2 & HR). pose proof HR as ((HQ0 & HT & HIn) & _). rewrite (rep_data _ _ HT Hn2), El. split; [done|]. split.
    - rewrite <- El. rewrite all_points_nil_iff; [done|]. apply content_in_nonempty.
    - rewrite <- El. apply current_reflects; [done|by split|]. destruct Hg as (k & _ & Hk). by eapply HCur.
  Qed.
End sessions.
