(** Variable resolution grids whose history has no queries: their sub-grids, and saving and loading them. *)
From Verif Require Import Py Nd Numpy Point Bin Algorithms Tile Time Meta Disk Grid GridRun GridQuery GridOps Export Spec TileExec GridExec Store StoreExec.
From Verif Require Import PyFacts NdFacts NumpyFacts BinFacts TileFacts TileGridFacts TileSpecFacts TileRunFacts TileHistFacts TilePropFacts TileQueryFacts.
From Verif Require Import GridBaseFacts GridPlaceFacts GridInvFacts GridRootFacts GridEvolveFacts GridSrFacts GridPropFacts GridHistFacts GridRunFacts GridCleanFacts GridUpdateFacts GridCountFacts.
From Verif Require Import FsFacts TileStoreFacts CrashFacts GridStoreFacts GridLoadFacts GridReachFacts.
Open Scope Z_scope.

(** ** Width and height are set together *)
Section sized.
  Context {T : Type} (O : tile_ops T).
  Definition both_sizes (g : grid T) : Prop := is_Some (m_width (g_meta g)) -> is_Some (m_height (g_meta g)).
  Definition sized (g g' : grid T) : Prop := both_sizes g -> both_sizes g'.
  Lemma sized_trans a b c : sized a b -> sized b c -> sized a c.
  Proof. unfold sized. auto. Qed.
  Lemma update_metadata_sized (g : grid T) a : sized g (g <| g_meta := (update_metadata (g_meta g) a).1 |>).
  Proof. unfold sized, both_sizes, update_metadata. cbn. repeat case_match; done. Qed.
  Lemma build_grid_sized (g : grid T) x : sized g (build_grid g x).1.
  Proof. unfold sized, both_sizes, build_grid. repeat case_match; cbn; eauto. Qed.
  Lemma base_grid_sized (g : grid T) d : sized g (update_base_grid g d).1.
  Proof. unfold update_base_grid. repeat case_match; try apply build_grid_sized; unfold sized, both_sizes; auto. Qed.
  Lemma place_tiles_sized (g : grid T) : sized g (place_tiles g).1.
  Proof. unfold sized, both_sizes, place_tiles. repeat case_match; cbn; auto. Qed.
  Lemma add_to_tiles_sized (g : grid T) d a : sized g (st_of (add_points_to_tiles O g d a)).
  Proof. unfold sized, both_sizes, add_points_to_tiles. repeat case_match; cbn; auto. Qed.
  Lemma add_sized (g : grid T) inp a : sized g (st_of (g_add_points O g inp a)).
  Proof.
    assert (R0 : forall h : grid T, sized h h) by (by intros h ?).
    unfold g_add_points. destruct (dmem _ _); [apply R0|]. destruct inp as [d|]; [|apply R0].
    pose proof (update_metadata_sized g a) as H1. destruct (update_metadata (g_meta g) a) as [m1 [x|]]; cbn [fst] in H1; [exact H1|].
    pose proof (base_grid_sized (g <| g_meta := m1 |>) d) as H2. destruct (update_base_grid _ d) as [g2 [x|]]; cbn [fst] in H2; [by eapply sized_trans|].
    pose proof (place_tiles_sized g2) as H3. destruct (place_tiles g2) as [g3 [x|]]; cbn [fst] in H3; [intros HB; by apply H3, H2, H1|].
    cbv zeta. pose proof (add_to_tiles_sized g3 d a) as H4.
    assert (A4 : sized g (st_of (add_points_to_tiles O g3 d a))) by (intros HB; by apply H4, H3, H2, H1).
    destruct (exn_of _); [exact A4|]. exact A4.
  Qed.
  Lemma set_tile_sized (g : grid T) k t : sized g (set_tile g k t).
  Proof. unfold sized, both_sizes. by rewrite set_tile_meta. Qed.
  Lemma remove_sized (g : grid T) c : sized g (st_of (g_remove_points O g c)).
  Proof.
    assert (R0 : forall h : grid T, sized h h) by (by intros h ?).
    unfold g_remove_points. destruct (negb _); [apply R0|]. cbv zeta. set (g1 := g <| g_meta := _ |>).
    assert (A1 : sized g g1) by exact (fun H => H).
    assert (Hstep : forall h k, sized h (st_of (remove_from_tile O c h k))).
    { intros h k. unfold remove_from_tile.
      assert (Hsave : forall h, sized h (st_of (save_reload O h k SavePoints))).
      { intros h'. unfold save_reload. repeat case_match; cbn [st_of]; first [apply set_tile_sized|apply R0]. }
      set (r1 := match tile_at h k with None => _ | Some t => _ end).
      assert (H1 : sized h (st_of r1)).
      { unfold r1. destruct (tile_at h k) as [t|]; [|apply R0]. destruct (exn_of _); [apply set_tile_sized|].
        destruct (op_empty O _); [|apply set_tile_sized].
        eapply sized_trans; [apply (set_tile_sized h k (Some (st_of (op_remove O t c))))|].
        set (h1 := set_tile h k (Some (st_of (op_remove O t c)))).
        assert (Hrm : sized h1 (remove_tile h1 k).1).
        { unfold remove_tile. cbv zeta. destruct (match g_mask h1 with Some b => _ | None => _ end) as [b|x]; [|apply R0].
          destruct (m_ntiles (g_meta h1)); cbn [fst]; [|exact (fun H => H)]. eapply sized_trans; [|apply set_tile_sized]. exact (fun H => H). }
        by destruct (remove_tile h1 k) as [g2 e2]. }
      destruct (exn_of r1); [done|]. eapply sized_trans; [exact H1|apply Hsave]. }
    assert (Hl : forall l h, sized h (st_of (oloop (remove_from_tile O c) l h))).
    { induction l as [|k l IH]; intros h; [apply R0|]. cbn [oloop]. pose proof (Hstep h k) as H1.
      destruct (exn_of (remove_from_tile O c h k)); [done|]. eapply sized_trans; [exact H1|apply IH]. }
    set (r := if g_is_empty g1 then _ else _).
    assert (Hr : sized g (st_of r)).
    { unfold r. destruct (g_is_empty g1); [exact A1|]. eapply sized_trans; [exact A1|apply Hl]. }
    destruct (exn_of r); [done|]. cbn [st_of]. destruct (g_is_empty (st_of r)); exact Hr.
  Qed.

End sized.

Section vr.
  Context (e : env) (P : gargs -> Prop) (size sub : Z) (b zarr disk : bool) (Hsize : 0 < size) (Hsub : 0 < sub).
  Context (HP : forall a, P a -> known_args a).
  Notation m0 := (new_vr_meta 0 0 size sub b zarr).
  Notation srep := (reach_rep e sub false).
  Notation sub0 := (sub0 size sub b zarr).
  Definition vsub_rep (alg : string) (sg : grid tile) (x y : Z) (ct : content) : Prop :=
    child_inv (sub0 x y) (srep (m_algorithm (g_meta sg))) x y size sg ct /\ sub_alg_is sg alg /\ both_sizes sg.

  Lemma vsrep_laws alg x y : tile_laws sr_ops (sub0 x y) (srep alg).
  Proof using Hsize Hsub. by apply reach_laws. Qed.

  Lemma vsub_laws alg : tile_laws vr_ops m0 (vsub_rep alg).
  Proof using Hsize Hsub.
    split.
    - intros m d x y F. cbn. rewrite (sub_meta_frame _ _ _ _ _ _ _ F). split; [by apply child_new|]. split; [by left|]. by intros [? ?].
    - intros g x y ct d a (H & HA & HZ) Hd Hin Hf Hn. cbn. unfold vsub_rep, sub_alg_is.
      rewrite (same_attrs_alg _ _ (add_attrs sr_ops g (GoodData d) a)).
      destruct (child_add sr_ops (sub0 x y) _ (vsrep_laws (m_algorithm (g_meta g)) x y) Hsub eq_refl x y size Hsize eq_refl g ct d a) as (H1 & H2 & _); [done..|]. split; [done|]. split; [done|]. split; [done|]. by apply add_sized.
    - intros g x y ct c (H & HA & HZ). cbn. unfold vsub_rep, sub_alg_is. rewrite (same_attrs_alg _ _ (remove_attrs sr_ops g c)).
      destruct (child_remove sr_ops (sub0 x y) _ (vsrep_laws (m_algorithm (g_meta g)) x y) Hsub x y size g ct c) as [H1 H2]; [done|]. split; [done|]. split; [done|]. split; [done|]. by apply remove_sized.
    - intros g x y ct [[B [(H1 & -> & _)|(H1 & a & H2 & _)]] _]; cbn.
      + unfold g_is_empty. by rewrite H1.
      + destruct H2 as [P1 P2 P3 P4 P5 P6 P7 P8].
        rewrite (slots_is_empty (sub0 x y) _ Hsub g ct _ _ _ _ a P4 P7 P8); [|apply B].
        apply bool_decide_ext. symmetry. apply all_points_nil_iff. apply B.
    - intros g x y ct [[B [(H1 & -> & _)|(H1 & a & H2 & _)]] _]; cbn.
      + unfold g_points_count, live_tiles. by rewrite H1.
      + destruct H2 as [P1 P2 P3 P4 P5 P6 P7 P8].
        exact (slots_count sr_ops (sub0 x y) _ (vsrep_laws _ x y) Hsub g a _ _ _ _ ct P4 P7 P8).
    - done.
  Qed.

  Lemma vsub_evolve g a dask : exn_of (g_grid vr_ops e g a dask) = None -> known_args a ->
    let g' := st_of (g_grid vr_ops e g a dask) in
    evolve (carry (vsub_rep (m_algorithm (g_meta g))) (vsub_rep (ga_alg a))) g g' /\ m_algorithm (g_meta g') = ga_alg a.
  Proof using Hsize Hsub.
    intros Hx HA g'. pose proof (vr_finished e g a dask (vr_origins g) Hx) as D. split.
    2:{ destruct (gd_meta _ _ _ _ _ _ D) as (rz & Hm & _). unfold g'. by rewrite Hm. }
    apply (evolve_strengthen sub_keeps).
    { apply evolve_grid; [apply sub_keeps_refl|apply sub_keeps_trans|apply vr_grid_keeps|apply vr_reload_keeps]. }
    assert (HC : ga_clear a = false -> m_algorithm (g_meta g) = "" \/ m_algorithm (g_meta g) = ga_alg a).
    { intros Hc. pose proof (gd_match _ _ _ _ _ _ D) as HM. unfold mismatch in HM. rewrite Hc, andb_true_r in HM.
      apply andb_false_iff in HM as [HM|HM]; apply negb_false_iff, bool_decide_eq_true in HM; auto. }
    intros k t t' Ht Ht' x y ct (HR & HS & HZ).
    destruct (vr_done_tile e g a dask Hx) as (rez & Hrez & HT). destruct (HT k t Ht) as (t2 & Ht2 & H).
    unfold g' in Ht'. rewrite Ht2 in Ht'. injection Ht' as <-. destruct (skip_tile _ _ _ t) eqn:Hs.
    - destruct H as [-> _]. split; [done|]. split; [|done]. destruct HS as [HS|[HS Hk]]; [by left|right].
      unfold skip_tile in Hs. apply andb_true_iff in Hs as [Hs _]. apply andb_true_iff in Hs as [_ Hs]. apply negb_true_iff in Hs.
      destruct (HC Hs) as [E|E]; [|by rewrite <- E]. rewrite E in Hk. by destruct Hk as [|[|]].
    - destruct H as (bd & Hb & H). cbv zeta in H. destruct H as (Hx2 & -> & _).
      set (a' := call_args _ _ _ _ _ _ _) in *.
      assert (HA' : known_args a') by exact HA.
      destruct (reach_evolve e sub false Hsub t a' None (child_origins _ _ _ _ _ _ _ _ HR) Hx2 HA') as [E EA].
      split; [|split].
      + rewrite EA. eapply child_evolve; [|exact E|exact HR]. intros t1 t2 u v c0 Hc Hr. by apply Hc.
      + right. split; [exact EA|]. by apply known_elem, HA.
      + unfold both_sizes. destruct (ev_meta _ _ _ E) as (? & ? & ? & ? & ->). exact HZ.
  Qed.

  Lemma vr_update_inv g ct : update_history vr_ops e P (create_vr size sub b zarr disk) g ct ->
    g_disk g = disk /\ exists seen ok, root_inv m0 (vsub_rep (m_algorithm (g_meta g))) g ct seen ok.
  Proof using Hsize Hsub HP.
    assert (L : forall alg, tile_laws vr_ops m0 (vsub_rep alg)) by (intros; by apply vsub_laws).
    induction 1 as [|g ct d a H IH Hx|g ct inp a H IH Hx|g ct c H IH Hx|g ct a dask H IH Ha Hx];
      [split; [done|]; exists [], true; by apply root_new|destruct IH as [ID (seen & ok & IH)]..].
    - pose proof (add_attrs vr_ops g (GoodData d) a) as [A1 A2]. split; [congruence|]. injection A1 as _ A1 _ _. rewrite A1.
      destruct (root_add vr_ops m0 _ (L _) Hsize eq_refl eq_refl eq_refl g ct seen ok (GoodData d) a IH) as [(H1 & _)|(d' & m1 & [= <-] & _ & _ & _ & _ & H2 & _)]; [done|]. eauto.
    - pose proof (add_attrs vr_ops g inp a) as [A1 A2]. split; [congruence|]. injection A1 as _ A1 _ _. rewrite A1.
      destruct (root_add vr_ops m0 _ (L _) Hsize eq_refl eq_refl eq_refl g ct seen ok inp a IH) as [(H1 & H2 & _)|(d' & m1 & _ & _ & _ & _ & H1 & _)]; [eauto|done].
    - pose proof (remove_attrs vr_ops g c) as [A1 A2]. split; [congruence|]. injection A1 as _ A1 _ _. rewrite A1.
      destruct (root_remove vr_ops m0 _ (L _) Hsize g ct seen ok c IH) as [_ H2]. destruct (H2 Hx) as [H3 _]. eauto.
    - destruct (vsub_evolve g a dask Hx (HP _ Ha)) as [E ->].
      split; [by rewrite (ev_disk _ _ _ E)|]. exists seen, ok. eapply root_evolve; [|exact E|exact IH]. intros t t' x y c0 Hc Hr. by apply Hc.
  Qed.
  Lemma vsub_save alg sg x y ct F : vsub_rep alg sg x y ct -> ct <> [] ->
    exists sg', load_sr (fs_run F (ev_of (save_sr_to sg))) = Ok sg' /\ same_sub sg sg'.
  Proof using Hsize Hsub.
    intros ([B [(_ & E & _)|(Hne & a & [P1 P2 P3 P4 P5 P6 P7 P8] & _ & Hw)]] & _ & HZ) Hct; [done|].
    apply (saved_to sg F x y sub (Z.to_nat (ceil_div size sub)) (Z.to_nat (ceil_div size sub))); [done|exact P3| | |].
    - unfold tiles_size. rewrite P4. by destruct P7.
    - intros k t Ht. destruct (placed_rep (sub0 x y) _ sg ct x y _ _ a k t (Build_placed (sub0 x y) _ _ _ _ _ _ _ _ P1 P2 P3 P4 P5 P6 P7 P8) Ht) as (u & v & c0 & ((_ & HR & _) & H2 & _) & Hn).
      eapply (reach_plain e u v sub false); [done|exact H2|]. destruct (t_data t) as [d|] eqn:E; [done|]. exfalso. apply Hn. by apply (tr_none _ _ HR).
    - destruct Hw as [Hw Hh]. rewrite (cb_ext _ _ _ _ _ _ B), Hw, Hh. eauto.
  Qed.
  Lemma load_sub_Ok f g : load_sr f = Ok g -> load_sub f = Ok (Some g).
  Proof. intros H. unfold load_sub. assert (fs_exists f [] = true) as ->; [|by rewrite H]. unfold load_sr, load_grid in H. by destruct (fs_exists f []). Qed.
  Lemma vr_update_save g ct F : update_history vr_ops e P (create_vr size sub b zarr disk) g ct -> ct <> [] ->
    (forall k x y, origin_at g k = Some (x, y) -> tile_at g k = None -> fs_exists F [FFolder (NTile x y)] = false) ->
    exn_of (save_vr_to g) = None /\ exists g', load_vr (fs_run F (ev_of (save_vr_to g))) = Ok g' /\ g_geom g' = g_geom g /\ g_meta g' = g_meta g /\ same_tiles same_sub g g'.
  Proof using Hsize Hsub HP.
    intros H Hne HF. destruct (vr_update_inv g ct H) as (_ & seen & ok & HI). pose proof HI as [_ [(_ & E & _)|(_ & lx & ly & nx & ny & a & [P1 P2 P3 P4 P5 P6 P7 P8] & (_ & _ & F3 & F4 & F5) & _)]]; [done|].
    split; [cbn; unfold save_exn; by rewrite P4|]. unfold save_vr_to. cbn [ev_of]. set (g1 := g <| g_disk := true |>). rewrite run_app.
    set (sv := fun o : option sr_grid => match o with Some sg => ev_of (save_sr_to sg) | None => [] end).
    set (f1 := fs_run F (save_grid g1)). assert (A1 : arrays_stored g1 (g_meta g1) f1) by (by apply save_grid_stored).
    assert (HD : distinct g1) by exact (std_distinct g1 lx ly size nx ny Hsize P3).
    destruct (load_grid_rel load_sub same_sub g1 (fs_run f1 (save_tiles g1 sv)) (g_meta g1) _ P3 (save_tiles_arrays _ _ _ _ A1))
      as (g' & L1 & L2 & L3 & L4 & L5 & L6).
    { intros k x y Ho. pose proof (std_origin_bound m0 lx ly nx ny k (x, y) g1 P3 Ho) as Hk.
      rewrite (save_tiles_sub g1 sv f1 k x y); [|done|done|].
      2:{ unfold tiles_size. cbn. rewrite P4. destruct P7 as [HL _]. rewrite HL. exact Hk. }
      change (tile_at g1 k) with (tile_at g k). destruct (tile_at g k) as [sg|] eqn:Et.
      - destruct (root_rep m0 _ _ _ _ _ _ _ HI Et) as (u & v & c0 & HR & Hn). destruct (vsub_save _ sg u v c0 (fsub f1 (FFolder (NTile x y))) HR Hn) as (sg' & S1 & S2).
        exists (Some sg'). split; [by apply load_sub_Ok|done].
      - exists None. split; [|done]. cbn [sv fs_run foldl]. unfold load_sub. unfold f1. rewrite save_grid_folders. rewrite exists_fsub. by rewrite (HF k x y). }
    exists g'. split; [exact L1|]. split; [exact L2|]. split; [|exact L6]. rewrite L3. apply loaded_meta_id; cbn; rewrite ?F3, ?F4, ?F5; eauto.
  Qed.
  Lemma vr_update_tile g ct j k sg t : update_history vr_ops e P (create_vr size sub b zarr disk) g ct -> tile_at g j = Some sg -> tile_at sg k = Some t ->
    exists x y, tile_reach false e x y sub false t /\ is_Some (t_data t).
  Proof using Hsize Hsub HP.
    intros H Hj Hk. destruct (vr_update_inv g ct H) as (_ & seen & ok & HI). destruct (root_rep m0 _ _ _ _ _ _ _ HI Hj) as (u & v & c0 & (HR & _) & Hn).
    destruct (child_rep (sub0 u v) _ _ _ _ _ _ _ _ HR Hk) as (x & y & c1 & ((_ & HT & _) & H2 & _) & Hne). exists x, y. split; [done|].
    destruct (t_data t) as [d|] eqn:E; [done|]. exfalso. apply Hne. by apply (tr_none _ _ HT).
  Qed.
  Lemma vr_update_layers g ct j k sg t r : update_history vr_ops e P (create_vr size sub b zarr disk) g ct -> tile_at g j = Some sg -> tile_at sg k = Some t -> r ∈ dkeys (t_cells t) ->
    is_Some (layer_of t r "depth") /\ layer_of t r "intensity" = None.
  Proof using Hsize Hsub HP.
    intros H Hj Hk [l Hl]%dget_is_Some. destruct (vr_update_tile g ct j k sg t H Hj Hk) as (x & y & HR & Hd). exact (reach_layers e x y sub false t r l Hsub HR Hl).
  Qed.
End vr.
