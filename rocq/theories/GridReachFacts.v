(** The tiles of a single resolution grid whose history has no queries. *)
From Verif Require Import Py Nd Numpy Point Bin Algorithms Tile Time Meta Disk Grid GridRun GridQuery GridOps Export Spec TileExec GridExec Store StoreExec.
From Verif Require Import PyFacts NdFacts NumpyFacts BinFacts TileFacts TileGridFacts TileSpecFacts TileRunFacts TileHistFacts TilePropFacts TileQueryFacts.
From Verif Require Import GridBaseFacts GridPlaceFacts GridInvFacts GridRootFacts GridEvolveFacts GridSrFacts GridPropFacts GridHistFacts GridRunFacts GridCleanFacts GridUpdateFacts GridCountFacts.
From Verif Require Import FsFacts TileStoreFacts CrashFacts GridStoreFacts GridLoadFacts.
Open Scope Z_scope.

Lemma update_clean {T} (O : tile_ops T) e P g0 g ct : update_history O e P g0 g ct -> clean_history O e P g0 g ct.
Proof. induction 1; [apply CH_new|by apply CH_add|by apply CH_add_failed|by apply CH_remove|by apply CH_grid]. Qed.

Section reach.
  Context (e : env) (size : Z) (b : bool) (Hsize : 0 < size).
  Definition reach_rep (alg : string) (t : tile) (x y : Z) (ct : content) : Prop :=
    sr_rep size b t x y ct /\ tile_reach false e x y size b t /\ alg_is t alg.
  Lemma reach_laws m0 alg : m_tile_size m0 = size -> m_backscatter m0 = b -> tile_laws sr_ops m0 (reach_rep alg).
  Proof.
    intros E1 E2. pose proof (sr_laws m0) as L. rewrite E1, E2 in L. split.
    - intros m disk x y F. split; [by apply (tl_build _ _ _ L)|]. cbn. rewrite (mf_size _ _ F), (mf_back _ _ F), E1, E2.
      split; [|done]. apply TR_new.
    - intros t x y ct d a (H1 & H2 & H3) Hd Hin Hc Hn. destruct (tl_add _ _ _ L t x y ct d a H1 Hd Hin Hc Hn) as [L1 L2].
      split; [done|]. split; [done|]. cbn. split.
      + rewrite E1 in Hin. by apply TR_add.
      + unfold alg_is. rewrite (add_alg _ _ _ ct); [done|apply H1].
    - intros t x y ct c (H1 & H2 & H3). destruct (tl_remove _ _ _ L t x y ct c H1) as [L1 L2].
      split; [done|]. split; [done|]. cbn. split.
      + by apply TR_remove.
      + unfold alg_is. by rewrite remove_alg.
    - intros t x y ct (H1 & _). by apply (tl_empty _ _ _ L t x y).
    - intros t x y ct (H1 & _). by apply (tl_count _ _ _ L t x y).
    - intros md t x y ct (H1 & H2 & H3). split; [by apply (tl_reload _ _ _ L)|]. split.
      + by apply TR_reload.
      + unfold alg_is. cbn. by destruct (reload_fields md t) as (_ & _ & _ & _ & ->).
  Qed.
  Lemma reach_reload alg m t : carry (reach_rep alg) (reach_rep alg) t (t_reload m t).
  Proof.
    intros x y ct (H1 & H2 & H3). split; [eapply sr_rep_keeps; [apply sr_reload_keeps|done]|]. split; [by apply TR_reload|].
    unfold alg_is. by destruct (reload_fields m t) as (_ & _ & _ & _ & ->).
  Qed.
  Lemma reach_rep_grid alg0 alg ro clear mode gp border t t' r x y ct :
    reach_rep alg0 t x y ct -> known_alg alg -> (clear = false -> alg0 = "" \/ alg0 = alg) ->
    t_grid e t alg ro clear mode gp border = Ok (t', r) -> reach_rep alg t' x y ct.
  Proof using Hsize.
    intros (H1 & H2 & H3) HA HC Hg.
    assert (HK : clear = true \/ same_kind (t_algorithm t) alg).
    { destruct clear; [by left|right]. unfold same_kind. destruct (t_algorithm t) as [a0|] eqn:E; [|done].
      destruct (H3 a0 E) as [-> Hk]. destruct (HC eq_refl) as [-> | ->]; [|done]. by destruct Hk as [|[|]]. }
    split; [eapply sr_rep_keeps; [by eapply t_grid_keeps|done]|].
    split; [eapply TR_grid; [exact H2|by apply known_elem|done|done]|].
    destruct (reach_grid _ _ _ _ _ _ _ _ _ _ _ _ _ _ _ Hsize H2 (proj2 (known_elem _) HA) HK Hg) as (_ & _ & _ & _ & _ & _ & l & HT).
    intros a0. rewrite (gt_alg _ _ _ _ _ _ _ _ _ HT). intros [= <-]. done.
  Qed.
  Lemma reach_evolve g a dask : origins sr_ops g -> exn_of (g_grid sr_ops e g a dask) = None -> known_args a ->
    let g' := st_of (g_grid sr_ops e g a dask) in
    evolve (carry (reach_rep (m_algorithm (g_meta g))) (reach_rep (ga_alg a))) g g' /\ m_algorithm (g_meta g') = ga_alg a.
  Proof using Hsize.
    intros Ho Hx HA g'. pose proof (sr_finished e g a dask Ho Hx) as D. split.
    2:{ destruct (gd_meta _ _ _ _ _ _ D) as (rz & Hm & _). unfold g'. by rewrite Hm. }
    apply (evolve_strengthen tile_keeps).
    { apply evolve_grid; [apply tile_keeps_refl|apply tile_keeps_trans|apply sr_grid_keeps|apply sr_reload_keeps]. }
    assert (HC : ga_clear a = false -> m_algorithm (g_meta g) = "" \/ m_algorithm (g_meta g) = ga_alg a).
    { intros Hc. pose proof (gd_match _ _ _ _ _ _ D) as HM. unfold mismatch in HM. rewrite Hc, andb_true_r in HM.
      apply andb_false_iff in HM as [HM|HM]; apply negb_false_iff, bool_decide_eq_true in HM; auto. }
    intros k t t' Ht Ht' x y ct HR. apply known_elem in HA.
    destruct (sr_done_tile e g a dask Ho Hx) as (rez & Hrez & HT). destruct (HT k t Ht) as (t2 & Ht2 & H).
    unfold g' in Ht'. rewrite Ht2 in Ht'. injection Ht' as <-. cbv zeta in H. destruct (skip_tile _ _ _ t) eqn:Hs.
    - destruct H as [-> _]. destruct HR as (R1 & R2 & R3). split; [done|]. split; [done|]. intros a0 H0. destruct (R3 a0 H0) as [-> Hk].
      split; [|done]. unfold skip_tile in Hs. apply andb_true_iff in Hs as [Hs _]. apply andb_true_iff in Hs as [_ Hs].
      apply negb_true_iff in Hs. unfold clear_at in Hs. apply orb_false_iff in Hs as [Hs _].
      destruct (HC Hs) as [E|E]; [|done]. rewrite E in Hk. by destruct Hk as [|[|]].
    - destruct H as (bd & t1 & r & Hb & Hr & Hg & ->).
      assert (HS : reach_rep (ga_alg a) t1 x y ct).
      { eapply reach_rep_grid; [exact HR|exact HA| |exact Hg]. intros Hc. apply HC. unfold next_clear in Hc. by destruct (_ && _). }
      destruct (g_disk g); [|done]. by apply reach_reload.
  Qed.
End reach.

(** A tile with points that has not changed since it was gridded has been gridded. *)
Lemma reach_gridded e x y s b t : 0 < s -> tile_reach false e x y s b t -> is_Some (t_data t) -> t_changed t = false -> t_cells t <> [].
Proof.
  intros Hs. induction 1 as [|t d c H IH Hd|t c H IH|t alg ro clear mode gp border t' r H IH HA HC Hg|t layer ro nodata up t' o H IH Hq Hg|t m H IH].
  - intros [? ?]. done.
  - intros _. unfold t_add_points. by destruct (t_data t).
  - unfold t_remove_points. destruct (dget _ c) as [[s0 e0]|], (t_data t) eqn:E; [done|try done..]. all: rewrite E; intros; by apply IH.
  - intros _ _. destruct (reach_good _ _ _ _ _ _ _ Hs H) as (HG & _ & _). apply known_elem in HA.
    assert (HC' : clear = true \/ compat e t alg) by (destruct HC; [by left|right; by apply compat_kind]).
    destruct (t_grid_inv_ok _ _ _ _ _ _ _ _ _ _ HG HA HC' Hg) as (l' & HT & _). intros E.
    assert (HN : dget (t_cells t') r = Some l') by (rewrite (gt_cells _ _ _ _ _ _ _ _ _ HT), dget_dset; by rewrite decide_True). by rewrite E in HN.
  - done.
  - destruct (reload_fields m t) as (_ & -> & _ & -> & _). intros H1 H2. specialize (IH H1 H2). unfold t_reload. destruct (saves_grid m); [|done]. cbn. by destruct (t_cells t).
Qed.
Lemma dk_neg b : depth_key_of (negb b) <> depth_key_of b.
Proof. by destruct b. Qed.
Lemma keys_no_other e b alg : known_alg alg -> depth_key_of (negb b) ∉ alg_keys e (depth_key_of b) alg.
Proof.
  intros H. unfold alg_keys, initial_layers. destruct (has_tvu (e_dt e)), (has_thu (e_dt e)), b; destruct H as [->|[->| ->]];
    apply (bool_decide_unpack _); vm_compute; exact I.
Qed.

Lemma reach_layers e x y s b t r l : 0 < s -> tile_reach false e x y s b t -> dget (t_cells t) r = Some l ->
  is_Some (layer_of t r (depth_key_of b)) /\ layer_of t r (depth_key_of (negb b)) = None.
Proof.
  intros Hs HR Hl. destruct (reach_good _ _ _ _ _ _ _ Hs HR) as (HG & (_ & _ & _ & HB) & HX). unfold layer_of. rewrite Hl.
  destruct (g_cells _ _ HG r l Hl) as (_ & _ & _ & _ & alg & A1 & A2 & A3 & _). unfold t_depth_key in A3. rewrite HB in A3. split.
  - apply A3, alg_keys_depth, A2.
  - destruct (dget l (depth_key_of (negb b))) eqn:E; [|done]. exfalso. eapply (keys_no_other e b alg A2). specialize (HX eq_refl r l alg Hl A1 (depth_key_of (negb b))). unfold t_depth_key in HX. rewrite HB in HX. apply HX. by rewrite E.
Qed.

Section sr.
  Context (e : env) (P : gargs -> Prop) (size : Z) (b zarr disk : bool) (Hsize : 0 < size) (HP : forall a, P a -> known_args a).
  Notation m0 := (new_sr_meta 0 0 size b zarr).
  Notation rep := (reach_rep e size b).
  Lemma update_inv g ct : update_history sr_ops e P (create_sr size b zarr disk) g ct ->
    g_disk g = disk /\ exists seen ok, root_inv m0 (rep (m_algorithm (g_meta g))) g ct seen ok.
  Proof using Hsize HP.
    assert (L : forall alg, tile_laws sr_ops m0 (rep alg)) by (intros; by apply reach_laws).
    induction 1 as [|g ct d a H IH Hx|g ct inp a H IH Hx|g ct c H IH Hx|g ct a dask' H IH Ha Hx];
      [split; [done|]; exists [], true; by apply root_new|destruct IH as [ID (seen & ok & IH)]..].
    - pose proof (add_attrs sr_ops g (GoodData d) a) as [A1 A2]. split; [congruence|]. injection A1 as _ A1 _ _. rewrite A1.
      destruct (root_add sr_ops m0 _ (L _) Hsize eq_refl eq_refl eq_refl g ct seen ok (GoodData d) a IH) as [(H1 & _)|(d' & m1 & [= <-] & _ & _ & _ & _ & H2 & _)]; [done|]. eauto.
    - pose proof (add_attrs sr_ops g inp a) as [A1 A2]. split; [congruence|]. injection A1 as _ A1 _ _. rewrite A1.
      destruct (root_add sr_ops m0 _ (L _) Hsize eq_refl eq_refl eq_refl g ct seen ok inp a IH) as [(H1 & H2 & _)|(d' & m1 & _ & _ & _ & _ & H1 & _)]; [eauto|done].
    - pose proof (remove_attrs sr_ops g c) as [A1 A2]. split; [congruence|]. injection A1 as _ A1 _ _. rewrite A1.
      destruct (root_remove sr_ops m0 _ (L _) Hsize g ct seen ok c IH) as [_ H2]. destruct (H2 Hx) as [H3 _]. eauto.
    - destruct (reach_evolve e size b Hsize g a dask' (root_origins _ _ _ _ _ _ _ IH) Hx (HP _ Ha)) as [E ->].
      split; [by rewrite (ev_disk _ _ _ E)|]. exists seen, ok. eapply root_evolve; [|exact E|exact IH]. intros t t' x y c0 Hc Hr. by apply Hc.
  Qed.
  Lemma update_tile g ct k t : update_history sr_ops e P (create_sr size b zarr disk) g ct -> tile_at g k = Some t ->
    (exists x y, tile_reach false e x y size b t) /\ is_Some (t_data t).
  Proof using Hsize HP.
    intros H Ht. destruct (update_inv g ct H) as (_ & seen & ok & HI).
    destruct (root_rep m0 _ _ _ _ _ _ _ HI Ht) as (x & y & ct' & ((_ & HR & _) & H2 & _) & Hne). split; [eauto|].
    destruct (t_data t) as [d|] eqn:E; [done|]. exfalso. apply Hne. by apply (tr_none _ _ HR).
  Qed.
  Lemma update_plain g ct k t : update_history sr_ops e P (create_sr size b zarr disk) g ct -> tile_at g k = Some t -> plain_tile t.
  Proof using Hsize HP. intros H Ht. destruct (update_tile g ct k t H Ht) as ((x & y & HR) & Hd). by eapply reach_plain. Qed.
  Lemma update_layers g ct k t r : update_history sr_ops e P (create_sr size b zarr disk) g ct -> tile_at g k = Some t -> r ∈ dkeys (t_cells t) ->
    is_Some (layer_of t r (depth_key_of b)) /\ layer_of t r (depth_key_of (negb b)) = None.
  Proof using Hsize HP.
    intros H Ht [l Hl]%dget_is_Some. destruct (update_tile g ct k t H Ht) as ((x & y & HR) & Hd).
    exact (reach_layers e x y size b t r l Hsize HR Hl).
  Qed.
  Lemma update_gridded g ct a dask k t : update_history sr_ops e P (create_sr size b zarr disk) g ct -> P a ->
    let g' := st_of (g_grid sr_ops e g a dask) in exn_of (g_grid sr_ops e g a dask) = None -> tile_at g' k = Some t -> t_cells t <> [].
  Proof using Hsize HP.
    intros H Ha g' Hx Ht. assert (H' : update_history sr_ops e P (create_sr size b zarr disk) g' ct) by (by apply UH_grid).
    destruct (update_tile g' ct k t H' Ht) as ((x & y & HR) & Hd). apply (reach_gridded _ _ _ _ _ _ Hsize HR Hd).
    destruct (update_inv g ct H) as (_ & seen & ok & HI). pose proof (root_origins sr_ops _ _ _ _ _ _ HI) as Ho.
    destruct (reach_evolve e size b Hsize g a dask Ho Hx (HP _ Ha)) as [E _].
    assert (exists t0, tile_at g k = Some t0) as [t0 Ht0].
    { pose proof (ev_tiles _ _ _ E) as HF. fold g' in HF. unfold tile_at in *. destruct (g_tiles g) as [ta|], (g_tiles g') as [tb|]; [|done..].
      destruct HF as (_ & _ & HF). destruct (nflat tb !! k) as [[tk|]|] eqn:Ek; [|done..]. destruct (Forall2_lookup_r _ _ _ _ _ HF Ek) as ([ta0|] & -> & ?); [|done]. eauto. }
    destruct (sr_done_tile e g a dask Ho Hx) as (rez & Hrez & HT). destruct (HT k t0 Ht0) as (t2 & Ht2 & HS). fold g' in Ht2. rewrite Ht in Ht2. injection Ht2 as <-.
    cbv zeta in HS. destruct (skip_tile _ _ _ t0) eqn:Hs.
    - destruct HS as [-> _]. unfold skip_tile in Hs. apply andb_true_iff in Hs as [_ Hs]. by apply negb_true_iff in Hs.
    - destruct HS as (bd & t1 & r & Hb & Hr & Hg & ->).
      assert (HC : t_changed t1 = false).
      { revert Hg. unfold t_grid. intros (r' & _ & HV)%rbind_Ok. destruct (negb _); [done|]. apply rbind_Ok in HV as (? & _ & HV). apply rbind_Ok in HV as (? & _ & HV). by injection HV as <- <-. }
      destruct (g_disk g); [|done]. by destruct (reload_fields SaveGrid t1) as (_ & _ & _ & -> & _).
  Qed.
  Lemma update_save g ct F : update_history sr_ops e P (create_sr size b zarr disk) g ct -> ct <> [] ->
    exn_of (save_sr_to g) = None /\ exists g', load_sr (fs_run F (ev_of (save_sr_to g))) = Ok g' /\ g_geom g' = g_geom g /\ g_meta g' = g_meta g /\ same_tiles same_tile g g'.
  Proof using Hsize HP.
    intros H Hne. destruct (update_inv g ct H) as (_ & seen & ok & [_ [(_ & E & _)|(_ & lx & ly & nx & ny & a & [P1 P2 P3 P4 P5 P6 P7 P8] & (_ & _ & F3 & F4 & F5) & _)]]); [done|].
    split; [cbn; unfold save_exn; by rewrite P4|]. apply (saved_to g F lx ly size nx ny); [done|exact P3| | |].
    - unfold tiles_size. rewrite P4. by destruct P7.
    - intros k t Ht. by eapply update_plain.
    - rewrite F3, F4, F5. eauto.
  Qed.
End sr.
