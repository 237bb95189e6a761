(** Single resolution grids that are continued from their own output folder (C113). *)
From Verif Require Import Py Nd Numpy Point Bin Algorithms Tile Time Meta Disk Grid GridRun GridQuery GridOps Export Spec TileExec GridExec Store StoreExec SessionSpec.
From Verif Require Import PyFacts NdFacts NumpyFacts BinFacts TileFacts TileGridFacts TileSpecFacts TileRunFacts TileHistFacts TilePropFacts TileQueryFacts.
From Verif Require Import GridBaseFacts GridPlaceFacts GridInvFacts GridRootFacts GridEvolveFacts GridSrFacts GridPropFacts GridHistFacts GridRunFacts GridCleanFacts GridUpdateFacts GridCountFacts.
From Verif Require Import FsFacts TileStoreFacts CrashFacts GridStoreFacts GridLoadFacts GridSessionFacts.
Open Scope Z_scope.

(** What is loaded is what the folder holds. *)
Lemma stored_again F t t' : reloaded t t' -> plain_tile t -> tile_stored F t -> plain_tile t' /\ tile_stored F t'.
Proof.
  intros [S [N1 N2]] [P1 P2 P3 P4 P5] [T1 T2 (d & T3 & T3') [G1 G2 G3 G4 G5] T5].
  assert (HR : forall r, r ∈ dkeys (t_cells t') -> r ∈ dkeys (t_cells t)) by (intros r; apply (st_rezs _ _ S)).
  split; split.
  - by rewrite (st_data _ _ S).
  - done.
  - by rewrite N2.
  - intros r Hr%HR. rewrite (st_edges_x _ _ S r Hr), (st_edges_y _ _ S r Hr), (st_indices _ _ S r Hr). destruct (P4 r Hr) as (A1 & A2 & A3 & n & A4).
    split; [done|]. split; [done|]. split; [done|]. exists n. by rewrite (st_layers _ _ S).
  - intros r n. rewrite (st_layers _ _ S). apply P5.
  - done.
  - replace (tile_meta t') with (tile_meta t); [done|]. unfold tile_meta. destruct S. congruence.
  - exists d. by rewrite (st_data _ _ S).
  - split.
    + intros r n. by rewrite (st_layers _ _ S).
    + intros r Hr%HR. rewrite (st_edges_x _ _ S r Hr). by apply G2.
    + intros r Hr%HR. rewrite (st_edges_y _ _ S r Hr). by apply G3.
    + intros r Hr%HR. destruct (G4 r Hr) as (n & A1 & A2). exists n. by rewrite (st_layers _ _ S).
    + intros r n. rewrite (st_layers _ _ S). apply G5.
  - intros r Hr%HR. rewrite (st_indices _ _ S r Hr). by apply T5.
Qed.

Section own.
  Context (e : env) (Q : option (simple_algorithm * Z)) (P : gargs -> Prop) (size : Z) (b zarr : bool) (Hsize : 0 < size) (HP : forall a, P a -> asked Q a).
  Notation m0 := (new_sr_meta 0 0 size b zarr).
  Record own_inv (g : sr_grid) (f : fs) (ct : content) : Prop := {
    ow_on : on_disk g f; ow_disk : g_disk g = true; ow_sess : sess_inv e Q size b zarr g ct; ow_meta : folder_meta size g f }.

  (** The folder loads; the attributes are those of the grid except the number of tiles and the mean depth. *)
  Lemma own_load g f ct : own_inv g f ct -> ct <> [] ->
    exists g' n q, load_sr f = Ok g' /\ g_geom g' = g_geom g /\ g_meta g = g_meta g' <| m_ntiles := n |> <| m_mean_depth := q |> /\ g_disk g' = true /\
      same_tiles reloaded g g' /\ tiles_rel reloaded (g_tiles g) (g_tiles g') /\ arrays_stored g' (g_meta g') f /\
      is_Some (m_ext (g_meta g')) /\ is_Some (m_width (g_meta g')) /\ is_Some (m_height (g_meta g')).
  Proof using Hsize.
    intros [HO Hd (seen & ok & HI) HM] Hne.
    destruct HI as [_ [(_ & E & _)|(_ & lx & ly & nx & ny & a & [P1 P2 P3 P4 P5 P6 P7 P8] & _)]]; [done|].
    destruct HM as [(E & _)|[_ (m & n & q & HA & Hm & M1 & M2 & M3)]]; [rewrite P3 in E; done|].
    change (m_tile_size m0) with size in P3. assert (HD : distinct g) by (by eapply std_distinct).
    destruct (load_grid_rel load_sr_tile reloaded g f m _ P3 HA) as (g' & L1 & L2 & L3 & L4 & L5 & L6).
    { intros k x y Ho. pose proof (on_disk_at _ _ _ _ _ HO HD Ho) as HS. destruct (tile_at g k) as [t|]; cbn in HS.
      - destruct (load_reloaded _ t (proj2 HS)) as (t' & H1 & H2). by exists (Some t').
      - exists None. split; [|done]. apply load_no_folder. by rewrite HS. }
    rewrite (loaded_meta_id m M1 M2 M3) in L3. exists g', n, q. rewrite L3. do 5 (split; [done|]). split; [|split; [|done]].
    - destruct (load_shape _ _ _ _ L1 (eq_trans L2 P3)) as (ts & T1 & T2). cbn [std_geom gx gy meshgrid_x meshgrid_y nrows ncols] in T1. rewrite !uniform_length in T1.
      apply (same_tiles_rel reloaded g g' a ts lx ly size nx ny); try done; [by destruct P7|].
      rewrite T2, zip_with_length, std_geom_len. pose proof (meshgrid_y_wf (uniform lx size nx) (uniform ly size ny)) as HL. unfold nd_wf in HL.
      change (nflat (gy (std_geom lx ly size nx ny))) with (nflat (meshgrid_y (uniform lx size nx) (uniform ly size ny))). rewrite HL. cbn [meshgrid_y nrows ncols]. rewrite !uniform_length. lia.
    - destruct HA as [A1 A2 A3 A4 A5 A6 A7]. split; try done; rewrite ?L2, ?L4; done.
  Qed.
  Lemma own_continue g f ct g' : own_inv g f ct -> ct <> [] -> load_sr f = Ok g' -> m_ntiles (g_meta g') = m_ntiles (g_meta g) -> own_inv g' f ct.
  Proof using Hsize.
    intros HW Hne HL Hn. destruct (own_load g f ct HW Hne) as (g2 & n & q & L1 & L2 & L3 & L4 & L5 & L6 & L7 & L8). rewrite HL in L1. injection L1 as <-.
    destruct HW as [HO Hd HS HM]. destruct HM as [(_ & _ & E)|[(lx & ly & nx & ny & Hg) _]]; [subst f; done|].
    split.
    - destruct HO as [D1 D2]. destruct L5 as [S1 S2]. split.
      + intros x y t' Ht'. destruct (S2 x y t' Ht') as (t & Ht). destruct (S1 x y t Ht) as (t2 & Ht2 & HR).
        assert (t2 = t') as ->.
        { destruct Ht' as (k & O1 & T1), Ht2 as (j & O2 & T2). assert (j = k) as ->; [|congruence].
          eapply (std_distinct g'); [exact Hsize|by rewrite L2|exact O2|exact O1]. }
        destruct (D1 x y t Ht) as [E1 E2]. by eapply stored_again.
      + intros x y Hno. apply D2. intros t Ht. destruct (S1 x y t Ht) as (t' & Ht' & _). by apply (Hno t').
    - done.
    - destruct HS as (seen & ok & HI). exists seen, false.
      assert (Ha : m_algorithm (g_meta g') = m_algorithm (g_meta g)) by (rewrite L3; done). rewrite Ha.
      eapply (root_evolve m0 _ _ reloaded); [intros t t' x y c0 HR; by apply sess_load| |].
      2: { apply (root_unmasked _ _ (g <| g_meta := g_meta g' |>) ct seen ok (g_mask g') true).
           eapply root_inv_meta; [exact HI|rewrite L3; by split|rewrite L3; done..|done|]. rewrite L3. cbn. done. }
      split; cbn; try done. apply core_meta_refl.
    - right. split; [exists lx, ly, nx, ny; by rewrite L2|]. by apply meta_stored_now.
  Qed.
  Lemma own_ready g ct a : sess_inv e Q size b zarr g ct -> mismatch g a = false -> forall k t, tile_at g k = Some t -> ready e a t.
  Proof using.
    intros (seen & ok & HI) HM k t Ht. destruct (root_rep m0 _ _ _ _ _ _ _ HI Ht) as (x & y & ct' & HR & _). pose proof HR as (_ & HT & _). split; [apply HT|].
    eapply sess_kind; [exact HR|]. exact (mismatch_clear g a HM).
  Qed.
  Lemma own_sessions_inv g f ct : own_sessions e P size b zarr g f ct -> own_inv g f ct.
  Proof using Hsize HP.
    induction 1 as [|g f ct d a H IH r Hx|g f ct c H IH r Hx|g f ct a dask H IH HA r Hx|g f ct g' H IH Hne HL Hn].
    - split; [|done|exists [], true; by apply root_new|by left]. split; [|done]. intros x y t (k & _ & Hk). done.
    - destruct IH as [HO Hd HS HM]. pose proof (sess_add e Q size b zarr Hsize g ct d a HS Hx) as HS'. destruct HS as (seen & ok & HI).
      destruct (add_folder size b zarr Hsize _ g ct seen ok f d a (sess_laws e Q size b Hsize m0 _ eq_refl eq_refl) HI Hd HO Hx) as (A1 & A2 & A3 & _).
      pose proof (add_attrs sr_ops g (GoodData d) a) as [_ A4]. fold r in A4.
      split; [done|congruence|done|by right].
    - destruct (decide (c ∈ dkeys (m_container (g_meta g)))) as [Hc|Hc].
      + destruct IH as [HO Hd HS HM]. pose proof (sess_remove e Q size b zarr Hsize g ct c HS Hx) as HS'.
        destruct (remove_folder size Hsize g f c Hd HO HM Hc Hx) as (A1 & A2 & A3 & A4). pose proof (remove_attrs sr_ops g c) as [_ A5]. fold r in A5.
        split; [done|congruence|done|by right].
      + pose proof (sess_remove e Q size b zarr Hsize g ct c (ow_sess _ _ _ IH) Hx) as HS'.
        assert (Hr : r = Out g [] None) by (unfold r, g_remove_points; by rewrite (proj2 (dmem_false _ _) Hc)). fold r in HS'. rewrite Hr in *. cbn in *. by destruct IH.
    - destruct IH as [HO Hd HS HM]. pose proof (sess_grid e Q size b zarr Hsize g ct a dask HS (HP a HA) Hx) as HS'. pose proof HS as (seen & ok & HI).
      pose proof (sr_finished e g a dask (root_origins sr_ops m0 _ _ _ _ _ HI) Hx) as D.
      destruct (grid_folder e size b zarr Hsize _ g ct seen ok f a dask HI Hd HO HM (proj1 (HP a HA)) (own_ready g ct a HS (gd_match _ _ _ _ _ _ D)) Hx) as (A1 & A2 & A3 & A4).
      split; [done| |done|by right].
      assert (E : evolve (fun _ _ => True) g (st_of r)) by (by apply evolve_grid). by rewrite (ev_disk _ _ _ E).
    - by eapply own_continue.
  Qed.
  (** All attributes are in the folder after gridding and after a removal. *)
  Lemma own_now (g : sr_grid) f : on_disk g f -> arrays_stored g (g_meta g) f -> (exists lx ly nx ny, g_geom g = Some (std_geom lx ly size nx ny)) -> meta_stored g f ->
    exists g', load_sr f = Ok g' /\ same_tiles same_tile g g' /\ g_meta g' = g_meta g.
  Proof using Hsize.
    intros HO HA (lx & ly & nx & ny & Hg) (m & n & q & _ & Hm & M1 & M2 & M3).
    destruct (load_on_disk g f (g_meta g) _ HO (std_distinct _ _ _ _ _ _ Hsize Hg) Hg HA) as (g' & L1 & L2 & L3 & _ & _ & L6).
    exists g'. split; [done|]. split; [done|]. rewrite L3. by apply loaded_meta_id; rewrite Hm.
  Qed.
  Lemma own_grid_now g f ct a dask : own_sessions e P size b zarr g f ct -> P a -> let r := g_grid sr_ops e g a dask in exn_of r = None ->
    exists g', load_sr (fs_run f (ev_of r)) = Ok g' /\ same_tiles same_tile (st_of r) g' /\ g_meta g' = g_meta (st_of r).
  Proof using Hsize HP.
    intros H HA r Hx. destruct (own_sessions_inv g f ct H) as [HO Hd HS HM]. pose proof HS as (seen & ok & HI).
    pose proof (sr_finished e g a dask (root_origins sr_ops m0 _ _ _ _ _ HI) Hx) as D.
    destruct (grid_folder e size b zarr Hsize _ g ct seen ok f a dask HI Hd HO HM (proj1 (HP a HA)) (own_ready g ct a HS (gd_match _ _ _ _ _ _ D)) Hx) as (A1 & A2 & A3 & A4).
    by apply own_now.
  Qed.
  Lemma own_remove_now g f ct c : own_sessions e P size b zarr g f ct -> c ∈ dkeys (m_container (g_meta g)) -> let r := g_remove_points sr_ops g c in exn_of r = None ->
    exists g', load_sr (fs_run f (ev_of r)) = Ok g' /\ same_tiles same_tile (st_of r) g' /\ g_meta g' = g_meta (st_of r).
  Proof using Hsize HP.
    intros H Hc r Hx. destruct (own_sessions_inv g f ct H) as [HO Hd HS HM].
    destruct (remove_folder size Hsize g f c Hd HO HM Hc Hx) as (A1 & A2 & A3 & A4). by apply own_now.
  Qed.
End own.
Lemma same_tiles_reloaded g g' : same_tiles reloaded g g' -> same_tiles same_tile g g'.
Proof. intros [S1 S2]. split; [|done]. intros x y t Ht. destruct (S1 x y t Ht) as (t' & H1 & H2 & _). by exists t'. Qed.

(** ** The first batch *)
Lemma grid_untold {T} (O : tile_ops T) e (g : grid T) a n : g_is_empty g = false -> mismatch g a = false -> is_Some (ga_rez a) -> m_ntiles (g_meta g) = None ->
  exn_of (g_grid O e g a (Some n)) = Some TypeError.
Proof.
  intros He HM [r Hr] Hn. unfold mismatch in HM. unfold g_grid. rewrite HM, Hr. unfold g_is_empty in *. cbn. rewrite He, Hn. done.
Qed.
Lemma rel_empty {T} (R : T -> T -> Prop) (g g' : grid T) : tiles_rel R (g_tiles g) (g_tiles g') -> g_is_empty g' = g_is_empty g.
Proof.
  unfold tiles_rel, g_is_empty. destruct (g_tiles g) as [a|], (g_tiles g') as [a'|]; try done. intros (_ & _ & H).
  induction H as [|o o' l l' Ho _ IH]; [done|]. cbn. rewrite IH. by destruct o, o'.
Qed.
Lemma own_first e size b zarr d a : 0 < size ->
  let r := g_add_points sr_ops (create_sr size b zarr true) (GoodData d) a in exn_of r = None ->
  exists g', load_sr (fs_run [] (ev_of r)) = Ok g' /\ m_ntiles (g_meta g') = None /\ is_Some (m_ntiles (g_meta (st_of r))) /\
    forall args n, is_Some (ga_rez args) -> exn_of (g_grid sr_ops e g' args (Some n)) = Some TypeError.
Proof.
  intros Hs r Hx. set (P := fun _ : gargs => False). assert (HP : forall a, P a -> asked None a) by done.
  pose proof (OS_add e P size b zarr _ _ _ d a (OS_new e P size b zarr) Hx) as H. cbv zeta in H. fold r in H.
  pose proof (own_sessions_inv e None P size b zarr Hs HP _ _ _ H) as HW.
  assert (Hne : [] ++ [(a_container a, d)] <> ([] : content)) by done.
  destruct (own_load e None size b zarr Hs _ _ _ HW Hne) as (g' & n & q & L1 & L2 & L3 & _ & _ & L6 & _).
  destruct (add_stale e size b zarr _ _ d a Hs (SH_new e size b zarr) Hx) as (g2 & K1 & K2 & _). fold r in K1. rewrite L1 in K1. injection K1 as <-.
  destruct HW as [_ _ (seen & ok & HI) _].
  assert (HE : g_is_empty (st_of r) = false). { rewrite (root_is_empty (new_sr_meta 0 0 size b zarr) _ Hs _ _ _ _ HI). by apply bool_decide_eq_false_2. }
  exists g'. split; [done|]. split; [done|]. split.
  { apply (root_tiles_known _ _ _ _ _ _ (Some 0%nat) HI); [by eexists|done]. }
  intros args k Hr. apply grid_untold; [by rewrite (rel_empty _ _ _ L6)| |done|done].
  pose proof (add_attrs sr_ops (create_sr size b zarr true) (GoodData d) a) as [A1 _]. injection A1 as _ A1 _ _. fold r in A1.
  unfold mismatch. replace (m_algorithm (g_meta g')) with ""; [done|]. rewrite L3 in A1. by cbn in A1.
Qed.
