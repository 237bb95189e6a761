(** Histories of a single resolution grid with an output folder, and loading that folder. *)
From Verif Require Import Py Nd Numpy Point Bin Algorithms Tile Time Meta Disk Grid GridRun GridQuery GridOps Export Spec TileExec GridExec Store StoreExec.
From Verif Require Import PyFacts NdFacts NumpyFacts BinFacts TileFacts TileGridFacts TileSpecFacts TileRunFacts TileHistFacts TilePropFacts TileQueryFacts.
From Verif Require Import GridBaseFacts GridPlaceFacts GridInvFacts GridRootFacts GridEvolveFacts GridSrFacts GridPropFacts GridHistFacts GridRunFacts GridCleanFacts GridUpdateFacts GridCountFacts.
From Verif Require Import FsFacts TileStoreFacts CrashFacts GridStoreFacts.
Open Scope Z_scope.

(** Attributes [m] on disk are those of the grid except the number of tiles and the mean depth. *)
Definition meta_stored (g : sr_grid) (f : fs) : Prop :=
  exists m n q, arrays_stored g m f /\ g_meta g = m <| m_ntiles := n |> <| m_mean_depth := q |> /\
    is_Some (m_ext m) /\ is_Some (m_width m) /\ is_Some (m_height m).
Lemma meta_stored_now g f : arrays_stored g (g_meta g) f ->
  is_Some (m_ext (g_meta g)) /\ is_Some (m_width (g_meta g)) /\ is_Some (m_height (g_meta g)) -> meta_stored g f.
Proof. intros H HE. exists (g_meta g), (m_ntiles (g_meta g)), (m_mean_depth (g_meta g)). split; [done|]. split; [by destruct (g_meta g)|done]. Qed.

Record stored_inv (e : env) (size : Z) (b zarr : bool) (g : sr_grid) (f : fs) : Prop := {
  si_on : on_disk g f;
  si_clean : exists ct, sr_clean e known_args size b zarr true g ct;
  si_meta : (g_geom g = None /\ m_container (g_meta g) = [] /\ f = []) \/
            (exists lx ly nx ny, g_geom g = Some (std_geom lx ly size nx ny)) /\ meta_stored g f }.

Lemma stored_grown g f d args g3 : distinct g3 -> g_disk g3 = true -> on_disk g f ->
  let r3 := add_points_to_tiles sr_ops g3 d args in exn_of r3 = None ->
  is_Some (m_ext (g_meta g3)) /\ is_Some (m_width (g_meta g3)) /\ is_Some (m_height (g_meta g3)) ->
  (forall x y t, has_tile g3 x y t <-> has_tile g x y t) ->
  let g4 := st_of r3 <| g_meta := g_meta (st_of r3) <| m_mean_depth := batch_mean_depth d |> |> in
  on_disk g4 (fs_run f (ev_of r3)) /\ g_geom g4 = g_geom g3 /\ meta_stored g4 (fs_run f (ev_of r3)) /\
  arrays_stored g4 (g_meta g3) (fs_run f (ev_of r3)).
Proof.
  intros HD Hd HO r3 Hx HE Hh g4. assert (H3 : on_disk g3 f) by (by eapply (on_disk_has g)).
  destruct (add_tiles_disk g3 d args f HD Hd H3 Hx) as (A1 & A2 & n & A3). fold r3 in A1, A2, A3.
  assert (HG : g_geom (st_of r3) = g_geom g3).
  { unfold r3, add_points_to_tiles. destruct (g_geom g3) eqn:E; [|exact E]. destruct (g_tiles g3); [|exact E]. destruct (bin2d_with_indices _ _ _); [|exact E]. cbv zeta. match goal with |- context [exn_of ?x] => destruct (exn_of x) end; exact E. }
  assert (A4 : arrays_stored g4 (g_meta g3) (fs_run f (ev_of r3))) by (destruct A2; by split).
  split; [by eapply (on_disk_has (st_of r3))|]. split; [done|]. split; [|done].
  exists (g_meta g3), n, (batch_mean_depth d). split; [done|]. split; [|done]. unfold g4. cbn. by rewrite A3.
Qed.

Section hist.
  Context (e : env) (size : Z) (b zarr : bool) (Hs : 0 < size).
  Notation m0 := (new_sr_meta 0 0 size b zarr).
  Notation rep := (steps_rep e (fun _ _ => True) size b).
  Lemma clean_root g ct : sr_clean e known_args size b zarr true g ct -> g_disk g = true /\ exists seen ok, root_inv m0 (rep (m_algorithm (g_meta g))) g ct seen ok.
  Proof using Hs. apply (sr_clean_inv e (fun _ _ => True) known_args size b zarr true Hs (fun a Pa => known_allows a Pa)). Qed.

  (** The folder, for any representation of the tiles. *)
  Lemma add_folder (rep0 : tile -> Z -> Z -> content -> Prop) g ct seen ok f d a : tile_laws sr_ops m0 rep0 -> root_inv m0 rep0 g ct seen ok -> g_disk g = true -> on_disk g f ->
    let r := g_add_points sr_ops g (GoodData d) a in exn_of r = None ->
    on_disk (st_of r) (fs_run f (ev_of r)) /\ (exists lx ly nx ny, g_geom (st_of r) = Some (std_geom lx ly size nx ny)) /\ meta_stored (st_of r) (fs_run f (ev_of r)) /\
    exists m, arrays_stored (st_of r) m (fs_run f (ev_of r)) /\ m_ntiles m = m_ntiles (g_meta g) /\ m_mean_depth m = m_mean_depth (g_meta g).
  Proof using Hs.
    intros HL HI Hd HO r Hx.
    destruct (add_grown m0 _ HL g ct seen ok d a Hs eq_refl eq_refl eq_refl HI Hx) as (g3 & lx & ly & nx & ny & H1 & H2 & H3 & H4 & H5 & H6 & H7 & H8).
    change (m_tile_size m0) with size in H3. fold r in H2.
    destruct (stored_grown g f d a g3 (std_distinct _ _ _ _ _ _ Hs H3) (eq_trans H4 Hd) HO H1 H5 H6) as (A1 & A2 & A3 & A4).
    rewrite H2. cbn [st_of ev_of]. split; [done|]. split; [exists lx, ly, nx, ny; by rewrite A2|]. split; [done|]. by exists (g_meta g3).
  Qed.
  Definition folder_meta (g : sr_grid) (f : fs) : Prop :=
    (g_geom g = None /\ m_container (g_meta g) = [] /\ f = []) \/
    (exists lx ly nx ny, g_geom g = Some (std_geom lx ly size nx ny)) /\ meta_stored g f.
  Lemma remove_folder g f c : g_disk g = true -> on_disk g f -> folder_meta g f -> c ∈ dkeys (m_container (g_meta g)) -> let r := g_remove_points sr_ops g c in exn_of r = None ->
    on_disk (st_of r) (fs_run f (ev_of r)) /\ arrays_stored (st_of r) (g_meta (st_of r)) (fs_run f (ev_of r)) /\
    (exists lx ly nx ny, g_geom (st_of r) = Some (std_geom lx ly size nx ny)) /\ meta_stored (st_of r) (fs_run f (ev_of r)).
  Proof using Hs.
    intros Hd HO HM Hc r Hx.
    destruct HM as [(_ & E & _)|[(lx & ly & nx & ny & Hg) (m & n & q & _ & Hm & M1 & M2 & M3)]]; [rewrite E in Hc; by apply not_elem_of_nil in Hc|].
    destruct (remove_disk g c f (std_distinct _ _ _ _ _ _ Hs Hg) Hd HO Hc Hx) as (A1 & A2 & A3 & A4 & A5 & A6). fold r in A1, A2, A3, A4, A5, A6.
    split; [done|]. split; [done|]. split; [exists lx, ly, nx, ny; by rewrite A3|]. apply meta_stored_now; [done|].
    rewrite A4, A5, A6, Hm. by cbn.
  Qed.
  Lemma grid_folder (rep0 : tile -> Z -> Z -> content -> Prop) g ct seen ok f a dask : root_inv m0 rep0 g ct seen ok -> g_disk g = true -> on_disk g f -> folder_meta g f ->
    known_args a -> (forall k t, tile_at g k = Some t -> ready e a t) -> let r := g_grid sr_ops e g a dask in exn_of r = None ->
    on_disk (st_of r) (fs_run f (ev_of r)) /\ arrays_stored (st_of r) (g_meta (st_of r)) (fs_run f (ev_of r)) /\
    (exists lx ly nx ny, g_geom (st_of r) = Some (std_geom lx ly size nx ny)) /\ meta_stored (st_of r) (fs_run f (ev_of r)).
  Proof using Hs.
    intros HI Hd HO HM HA HR r Hx.
    pose proof (root_origins sr_ops m0 _ _ _ _ _ HI) as Hor.
    pose proof (sr_finished e g a dask Hor Hx) as D.
    destruct HM as [(E & _ & _)|[(lx & ly & nx & ny & Hg) (m & n & q & _ & Hm & M1 & M2 & M3)]].
    { pose proof (gd_full _ _ _ _ _ _ D) as HF. exfalso. destruct HI as [_ [(H1 & _)|(_ & lx & ly & nx & ny & a0 & P & _)]].
      - unfold g_is_empty in HF. by rewrite H1 in HF.
      - pose proof (pl_geom _ _ _ _ _ _ _ _ _ P). congruence. }
    destruct (grid_disk e a HA g f dask (std_distinct _ _ _ _ _ _ Hs Hg) Hd) as (A1 & A2 & A3 & A4 & A5 & A6); [|done|done|done|].
    { intros k Hk. destruct (Hor) with k as [xy Hxy]; [by rewrite Hd|done|eauto]. }
    fold r in A1, A2, A3, A4, A5, A6.
    split; [done|]. split; [done|]. split; [exists lx, ly, nx, ny; by rewrite A3|]. apply meta_stored_now; [done|].
    rewrite A4, A5, A6, Hm. by cbn.
  Qed.

  Lemma add_stored g f d a : stored_inv e size b zarr g f -> let r := g_add_points sr_ops g (GoodData d) a in exn_of r = None ->
    on_disk (st_of r) (fs_run f (ev_of r)) /\ (exists lx ly nx ny, g_geom (st_of r) = Some (std_geom lx ly size nx ny)) /\ meta_stored (st_of r) (fs_run f (ev_of r)) /\
    exists m, arrays_stored (st_of r) m (fs_run f (ev_of r)) /\ m_ntiles m = m_ntiles (g_meta g) /\ m_mean_depth m = m_mean_depth (g_meta g).
  Proof using Hs.
    intros [HO [ct HC] _]. destruct (clean_root _ _ HC) as (Hd & seen & ok & HI).
    exact (add_folder _ g ct seen ok f d a (steps_laws e (fun _ _ => True) size b m0 _ eq_refl eq_refl) HI Hd HO).
  Qed.
  Lemma remove_stored g f c : stored_inv e size b zarr g f -> c ∈ dkeys (m_container (g_meta g)) -> let r := g_remove_points sr_ops g c in exn_of r = None ->
    on_disk (st_of r) (fs_run f (ev_of r)) /\ arrays_stored (st_of r) (g_meta (st_of r)) (fs_run f (ev_of r)) /\
    (exists lx ly nx ny, g_geom (st_of r) = Some (std_geom lx ly size nx ny)) /\ meta_stored (st_of r) (fs_run f (ev_of r)).
  Proof using Hs. intros [HO [ct HC] HM]. destruct (clean_root _ _ HC) as (Hd & _). by apply remove_folder. Qed.
  Lemma grid_stored_inv g f a dask : stored_inv e size b zarr g f -> known_args a -> let r := g_grid sr_ops e g a dask in exn_of r = None ->
    on_disk (st_of r) (fs_run f (ev_of r)) /\ arrays_stored (st_of r) (g_meta (st_of r)) (fs_run f (ev_of r)) /\
    (exists lx ly nx ny, g_geom (st_of r) = Some (std_geom lx ly size nx ny)) /\ meta_stored (st_of r) (fs_run f (ev_of r)).
  Proof using Hs.
    intros [HO [ct HC] HM] HA r Hx. destruct (clean_root _ _ HC) as (Hd & seen & ok & HI).
    apply (grid_folder _ g ct seen ok f a dask HI Hd HO HM HA); [|exact Hx].
    pose proof (sr_finished e g a dask (root_origins sr_ops m0 _ _ _ _ _ HI) Hx) as D.
    intros k t Ht. destruct (root_rep m0 _ _ _ _ _ _ _ HI Ht) as (x & y & ct' & (_ & (f0 & H2) & H3) & _).
    destruct (reach_good _ _ _ _ _ _ _ Hs (steps_reach _ _ _ _ _ _ _ _ _ H2)) as (HG & _). split; [done|].
    destruct (ga_clear a) eqn:Hc; [by left|right]. unfold same_kind. destruct (t_algorithm t) as [a0|] eqn:Ea; [|done].
    destruct (H3 a0 Ea) as [-> Hk]. pose proof (gd_match _ _ _ _ _ _ D) as HMm. unfold mismatch in HMm. rewrite Hc, andb_true_r in HMm.
    apply andb_false_iff in HMm as [HMm|HMm]; apply negb_false_iff, bool_decide_eq_true in HMm; [|by rewrite HMm].
    rewrite HMm in Hk. by destruct Hk as [|[|]].
  Qed.
  Lemma stored_history_inv g f : stored_history e size b zarr g f -> stored_inv e size b zarr g f.
  Proof using Hs.
    induction 1 as [|g f d a H IH r Hx|g f c H IH r Hx|g f a dask H IH HA r Hx].
    - split; [|exists []; apply CH_new|by left]. split; [|done]. intros x y t (k & _ & Hk). done.
    - destruct (add_stored g f d a IH Hx) as (A1 & A2 & A3 & _). destruct IH as [_ [ct HC] _]. split; [done|eexists; by apply CH_add|by right].
    - destruct (decide (c ∈ dkeys (m_container (g_meta g)))) as [Hc|Hc].
      + destruct (remove_stored g f c IH Hc Hx) as (A1 & A2 & A3 & A4). destruct IH as [_ [ct HC] _]. split; [done|eexists; by apply CH_remove|by right].
      + assert (Hr : r = Out g [] None) by (unfold r, g_remove_points; by rewrite (proj2 (dmem_false _ _) Hc)). rewrite Hr. exact IH.
    - destruct (grid_stored_inv g f a dask IH HA Hx) as (A1 & A2 & A3 & A4). destruct IH as [_ [ct HC] _]. split; [done|eexists; by apply CH_grid|by right].
  Qed.
End hist.

(** ** Loading *)
Lemma leaf_read f n l : leaf_at f n l -> fs_read f [n] = Some l.
Proof. unfold leaf_at, fs_read. by intros ->. Qed.
Lemma slot_load F o : slot_stored F o -> exists o', load_sr_tile F = Ok o' /\
  match o, o' with Some t, Some t' => same_tile t t' | None, None => True | _, _ => False end.
Proof.
  destruct o as [t|]; intros HS.
  - destruct HS as [_ HS]. destruct (load_stored F t HS) as (t' & H1 & H2). by exists (Some t').
  - exists None. cbn in HS. subst F. split; [by apply load_no_folder|done].
Qed.
Lemma rmap_exists {A B} (h : A -> res B) (l : list A) : (forall k a, l !! k = Some a -> exists b, h a = Ok b) -> exists bs, rmap h l = Ok bs.
Proof.
  induction l as [|x l IH]; intros H; [by exists []|]. destruct (H 0%nat x eq_refl) as [y Hy]. destruct IH as [ys Hys]; [intros k; apply (H (S k))|].
  exists (y :: ys). cbn. by rewrite Hy, Hys.
Qed.
Lemma slot_rel g f : on_disk g f -> distinct g -> forall k x y, origin_at g k = Some (x, y) ->
  exists o', load_sr_tile (fsub f (loc x y)) = Ok o' /\ opt_rel same_tile (tile_at g k) o'.
Proof. intros HO HD k x y Ho. destruct (slot_load _ _ (on_disk_at _ _ _ _ _ HO HD Ho)) as (o' & H1 & H2). exists o'. split; [done|]. by destruct (tile_at g k), o'. Qed.
Lemma load_grid_rel {T} (load_one : fs -> res (option T)) (R : T -> T -> Prop) g f m ge : g_geom g = Some ge -> arrays_stored g m f ->
  (forall k x y, origin_at g k = Some (x, y) -> exists o', load_one (fsub f (loc x y)) = Ok o' /\ opt_rel R (tile_at g k) o') ->
  exists g', load_grid load_one f = Ok g' /\ g_geom g' = g_geom g /\ g_meta g' = loaded_meta m /\ g_mask g' = Some (default (Nd 0 0 []) (g_mask g)) /\ g_disk g' = true /\ same_tiles R g g'.
Proof.
  intros Hg [A1 A2 A3 A4 A5 A6 A7] HL. rewrite Hg in A3, A4, A5, A6.
  set (zs := zip (nflat (gx ge)) (nflat (gy ge))).
  assert (Hz : forall k, zs !! k = origin_at g k).
  { intros k. unfold zs, origin_at. rewrite Hg, lookup_zip_with. destruct (nflat (gx ge) !! k); [|done]. by destruct (nflat (gy ge) !! k). }
  destruct (rmap_exists (fun xy : Z * Z => load_one (fsub f (loc xy.1 xy.2))) zs) as [ts Hts].
  { intros k [x y] Hk. rewrite Hz in Hk. destruct (HL k x y Hk) as (o & H1 & _). by exists o. }
  set (g' := mkGrid (loaded_meta m) (Some (Geom (gx ge) (gy ge) (gex ge) (gey ge))) (Some (default (Nd 0 0 []) (g_mask g))) (Some (Nd (nrows (gx ge)) (ncols (gx ge)) ts)) true).
  exists g'.
  assert (HE : fs_exists f [] = true) by (unfold fs_exists; rewrite dmem_dget; by apply bool_decide_eq_true).
  split.
  { unfold load_grid. rewrite HE, (leaf_read _ _ _ A2). cbn [negb]. unfold read_origins, read_ints, read_mask.
    rewrite (leaf_read _ _ _ A3), (leaf_read _ _ _ A4), (leaf_read _ _ _ A5), (leaf_read _ _ _ A6), (leaf_read _ _ _ A7). cbn [rbind]. fold zs. by rewrite Hts. }
  split; [by destruct ge|]. split; [done|]. split; [done|]. split; [done|].
  apply rmap_Ok in Hts.
  assert (Hor : forall k, origin_at g' k = origin_at g k) by (intros k; unfold origin_at; cbn; by rewrite Hg).
  assert (Hat : forall k x y, origin_at g k = Some (x, y) -> exists o', ts !! k = Some o' /\ opt_rel R (tile_at g k) o').
  { intros k x y Ho. pose proof Ho as Hk. rewrite <- Hz in Hk. destruct (Forall2_lookup_l _ _ _ _ _ Hts Hk) as (o' & H1 & H2).
    exists o'. split; [done|]. destruct (HL k x y Ho) as (o2 & H3 & H4). cbn in H2. rewrite H3 in H2. by injection H2 as ->. }
  split.
  - intros x y t (k & Ho & Ht). destruct (Hat k x y Ho) as (o' & H1 & H2). rewrite Ht in H2. destruct o' as [t'|]; [|done].
    exists t'. split; [|done]. exists k. rewrite Hor. split; [done|]. unfold tile_at. cbn. by rewrite H1.
  - intros x y t' (k & Ho & Ht). rewrite Hor in Ho. destruct (Hat k x y Ho) as (o' & H1 & H2). unfold tile_at in Ht. cbn in Ht. rewrite H1 in Ht. cbn in Ht. subst o'.
    destruct (tile_at g k) as [t|] eqn:E; [|done]. exists t. by exists k.
Qed.
Lemma load_on_disk g f m ge : on_disk g f -> distinct g -> g_geom g = Some ge -> arrays_stored g m f ->
  exists g', load_sr f = Ok g' /\ g_geom g' = g_geom g /\ g_meta g' = loaded_meta m /\ g_mask g' = Some (default (Nd 0 0 []) (g_mask g)) /\ g_disk g' = true /\ same_tiles same_tile g g'.
Proof. intros HO HD Hg HA. apply (load_grid_rel load_sr_tile same_tile g f m ge Hg HA). by apply slot_rel. Qed.
Lemma loaded_meta_id m : is_Some (m_ext m) -> is_Some (m_width m) -> is_Some (m_height m) -> loaded_meta m = m.
Proof. intros [x Hx] [w Hw] [h Hh]. unfold loaded_meta. rewrite Hx, Hw, Hh. destruct m; cbn in *; by subst. Qed.
Lemma stored_load e size b zarr g f : 0 < size -> stored_history e size b zarr g f -> f <> [] ->
  exists g' n q, load_sr f = Ok g' /\ g_geom g' = g_geom g /\ g_meta g = g_meta g' <| m_ntiles := n |> <| m_mean_depth := q |> /\
    g_mask g' = Some (default (Nd 0 0 []) (g_mask g)) /\ g_disk g' = true /\ same_tiles same_tile g g'.
Proof.
  intros Hs H Hf. destruct (stored_history_inv e size b zarr Hs g f H) as [HO _ HM].
  destruct HM as [(_ & _ & ?)|[(lx & ly & nx & ny & Hg) (m & n & q & HA & Hm & M1 & M2 & M3)]]; [done|].
  destruct (load_on_disk g f m _ HO (std_distinct _ _ _ _ _ _ Hs Hg) Hg HA) as (g' & L1 & L2 & L3 & L4 & L5 & L6).
  exists g', n, q. rewrite (loaded_meta_id m) in L3 by done. rewrite L3. done.
Qed.
Lemma stored_load_full e size b zarr g f : 0 < size -> stored_inv e size b zarr g f -> arrays_stored g (g_meta g) f -> is_Some (g_geom g) ->
  exists g', load_sr f = Ok g' /\ g_geom g' = g_geom g /\ g_meta g' = g_meta g /\ same_tiles same_tile g g'.
Proof.
  intros Hs [HO _ HM] HA [ge Hge].
  destruct HM as [(E & _ & _)|[(lx & ly & nx & ny & Hg) (m & n & q & _ & Hm & M1 & M2 & M3)]]; [congruence|].
  destruct (load_on_disk g f _ _ HO (std_distinct _ _ _ _ _ _ Hs Hg) Hg HA) as (g' & L1 & L2 & L3 & L4 & L5 & L6).
  exists g'. rewrite loaded_meta_id in L3; [done|rewrite Hm; done..].
Qed.

Lemma stored_distinct e size b zarr g f : 0 < size -> stored_history e size b zarr g f -> distinct g.
Proof.
  intros Hs H. destruct (stored_history_inv e size b zarr Hs g f H) as [_ _ [(E & _)|[(lx & ly & nx & ny & Hg) _]]].
  - intros j k xy. unfold origin_at. by rewrite E.
  - by eapply std_distinct.
Qed.
Lemma add_stale e size b zarr g f d a : 0 < size -> stored_history e size b zarr g f -> let r := g_add_points sr_ops g (GoodData d) a in exn_of r = None ->
  exists g', load_sr (fs_run f (ev_of r)) = Ok g' /\ m_ntiles (g_meta g') = m_ntiles (g_meta g) /\ m_mean_depth (g_meta g') = m_mean_depth (g_meta g).
Proof.
  intros Hs H r Hx. destruct (add_stored e size b zarr Hs g f d a (stored_history_inv e size b zarr Hs g f H) Hx) as (HO & (lx & ly & nx & ny & Hg) & _ & m & HA & H1 & H2). fold r in HO, Hg, HA.
  destruct (load_on_disk _ _ m _ HO (std_distinct _ _ _ _ _ _ Hs Hg) Hg HA) as (g' & L1 & L2 & L3 & _). exists g'. by rewrite L3.
Qed.
Lemma remove_current e size b zarr g f c : 0 < size -> stored_history e size b zarr g f -> c ∈ dkeys (m_container (g_meta g)) ->
  let r := g_remove_points sr_ops g c in exn_of r = None ->
  exists g', load_sr (fs_run f (ev_of r)) = Ok g' /\ g_geom g' = g_geom (st_of r) /\ g_meta g' = g_meta (st_of r) /\ same_tiles same_tile (st_of r) g'.
Proof.
  intros Hs H Hc r Hx. destruct (remove_stored e size b zarr Hs g f c (stored_history_inv e size b zarr Hs g f H) Hc Hx) as (_ & HA & (lx & ly & nx & ny & Hg) & _). fold r in HA, Hg.
  apply (stored_load_full e size b zarr); [done|by apply stored_history_inv, (SH_remove e size b zarr g f c)|done|rewrite Hg; eauto].
Qed.
Lemma grid_current e size b zarr g f a dask : 0 < size -> stored_history e size b zarr g f -> known_args a ->
  let r := g_grid sr_ops e g a dask in exn_of r = None ->
  exists g', load_sr (fs_run f (ev_of r)) = Ok g' /\ g_geom g' = g_geom (st_of r) /\ g_meta g' = g_meta (st_of r) /\ same_tiles same_tile (st_of r) g'.
Proof.
  intros Hs H Hc r Hx. destruct (grid_stored_inv e size b zarr Hs g f a dask (stored_history_inv e size b zarr Hs g f H) Hc Hx) as (_ & HA & (lx & ly & nx & ny & Hg) & _). fold r in HA, Hg.
  apply (stored_load_full e size b zarr); [done|by apply stored_history_inv, (SH_grid e size b zarr g f a dask)|done|rewrite Hg; eauto].
Qed.

(** ** Saving to another folder *)
Lemma run_folders {T} (o : nat -> option (Z * Z)) (sv : option T -> list prim) l : forall (off : nat) f k x y,
  (forall j k xy, o j = Some xy -> o k = Some xy -> j = k) -> o k = Some (x, y) ->
  fsub (fs_run f (concat (imap (fun i t => match o (off + i)%nat with Some (x, y) => prims_in (loc x y) (sv t) | None => [] end) l))) (loc x y) =
  match (if decide (k < off)%nat then None else l !! (k - off)%nat) with Some t => fs_run (fsub f (loc x y)) (sv t) | None => fsub f (loc x y) end.
Proof.
  induction l as [|t l IH]; intros off f k x y HD Hk; [cbn; by destruct (decide _)|].
  rewrite imap_cons. cbn [concat]. rewrite run_app.
  rewrite (imap_ext _ (fun i t => match o (S off + i)%nat with Some (x, y) => prims_in (loc x y) (sv t) | None => [] end)).
  2:{ intros i t' _. cbn [compose]. by replace (off + S i)%nat with (S off + i)%nat by lia. }
  rewrite (IH (S off) _ k x y HD Hk). replace (off + 0)%nat with off by lia.
  destruct (decide (k = off)) as [->|Hne].
  - rewrite (decide_True) by lia. rewrite decide_False by lia. replace (off - off)%nat with 0%nat by lia. cbn [lookup list_lookup]. rewrite Hk. by rewrite run_in.
  - assert (HX : fsub (fs_run f match o off with Some (x, y) => prims_in (loc x y) (sv t) | None => [] end) (loc x y) = fsub f (loc x y)).
    { destruct (o off) as [[x' y']|] eqn:Eo; [|done]. apply run_out. intros [= -> ->]. by apply Hne, (HD k off (x, y)). }
    rewrite HX. destruct (decide (k < S off)%nat).
    + by rewrite decide_True by lia.
    + rewrite decide_False by lia. by replace (k - off)%nat with (S (k - S off)) by lia.
Qed.
Lemma save_tiles_sub {T} (g : grid T) (sv : option T -> list prim) f k x y : distinct g -> origin_at g k = Some (x, y) -> (k < tiles_size g)%nat ->
  fsub (fs_run f (save_tiles g sv)) (loc x y) = fs_run (fsub f (loc x y)) (sv (tile_at g k)).
Proof.
  intros HD Ho Hk. unfold save_tiles. pose proof (run_folders (origin_at g) sv (match g_tiles g with Some a => nflat a | None => [] end) 0 f k x y HD Ho) as H.
  rewrite decide_False in H by lia. rewrite Nat.sub_0_r in H. cbn [Nat.add] in H. rewrite H. unfold tile_at, tiles_size in *.
  destruct (g_tiles g) as [a|]; [|cbn in Hk; lia]. destruct (nflat a !! k) eqn:E; [done|]. apply lookup_ge_None in E. lia.
Qed.
Lemma save_tiles_arrays {T} (g : grid T) (sv : option T -> list prim) m f : arrays_stored g m f -> arrays_stored g m (fs_run f (save_tiles g sv)).
Proof.
  unfold save_tiles. generalize (match g_tiles g with Some a => nflat a | None => [] end) as l. intros l. revert f.
  generalize (origin_at g) as o. induction l as [|t l IH]; intros o f HA; [done|]. rewrite imap_cons. cbn [concat]. rewrite run_app.
  apply (IH (o ∘ S)). destruct (o 0%nat) as [[x y]|]; [by apply arrays_folder|done].
Qed.
Lemma saved_to g F lx ly s nx ny : 0 < s -> g_geom g = Some (std_geom lx ly s nx ny) -> tiles_size g = (ny * nx)%nat ->
  (forall k t, tile_at g k = Some t -> plain_tile t) -> (is_Some (m_ext (g_meta g)) /\ is_Some (m_width (g_meta g)) /\ is_Some (m_height (g_meta g))) ->
  exists g', load_sr (fs_run F (ev_of (save_sr_to g))) = Ok g' /\ g_geom g' = g_geom g /\ g_meta g' = g_meta g /\ same_tiles same_tile g g'.
Proof.
  intros Hs Hg Hsz HP (E1 & E2 & E3). unfold save_sr_to. cbn [ev_of]. set (g1 := g <| g_disk := true |>). rewrite run_app.
  set (f1 := fs_run F (save_grid g1)). assert (A1 : arrays_stored g1 (g_meta g1) f1) by (by apply save_grid_stored).
  assert (HD : distinct g1) by (by eapply (std_distinct g1)).
  destruct (load_grid_rel load_sr_tile same_tile g1 (fs_run f1 (save_tiles g1 (fun t => save_tile t SaveAll))) (g_meta g1) _ Hg (save_tiles_arrays _ _ _ _ A1))
    as (g' & L1 & L2 & L3 & L4 & L5 & L6).
  { intros k x y Ho. pose proof (std_origin_bound (new_sr_meta 0 0 s false false) lx ly nx ny k (x, y) g1 Hg Ho) as Hk.
    rewrite (save_tiles_sub g1 _ f1 k x y); [|done|done|by change (tiles_size g1) with (tiles_size g); rewrite Hsz].
    destruct (tile_at g1 k) as [t|] eqn:Et.
    - destruct (load_stored (fs_run (fsub f1 (loc x y)) (save_tile (Some t) SaveAll)) t) as (t' & H1 & H2).
      { apply saved_stored; [by apply (HP k)|]. split; intros H; discriminate H. }
      exists (Some t'). done.
    - exists None. split; [|done]. apply load_no_folder. change (save_tile None SaveAll) with (save_tile None SavePoints). by rewrite rm_all. }
  exists g'. split; [exact L1|]. split; [done|]. split; [rewrite L3; by apply loaded_meta_id|]. done.
Qed.
