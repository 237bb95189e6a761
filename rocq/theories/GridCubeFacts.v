(** CUBE on whole grids (C103, C104). *)
From Coq Require Import Lqa.
From Verif Require Import Py Nd Numpy Point Bin Algorithms Tile TileFail Time Meta Disk Grid GridRun GridQuery GridOps Spec TileExec GridExec BorderSpec CubeSpec PyFacts NdFacts NumpyFacts AlgFacts BinFacts
  MiscFacts TileFacts TileGridFacts TileSpecFacts TileRunFacts TileHistFacts ShoalFacts TilePropFacts TileQueryFacts GridBaseFacts GridPlaceFacts GridInvFacts GridRootFacts
  GridEvolveFacts GridSrFacts GridPropFacts GridHistFacts GridRunFacts GridCleanFacts GridUpdateFacts GridDensityFacts GridFlagFacts GridLayerFacts GridReadFacts GridAnswerFacts GridUnknownFacts
  GridExportFacts TileSoundFacts GridRecoverFacts GridBorderFacts.
Open Scope Z_scope.

(** ** One tile *)
Lemma cube_tile q e x y s b t d ro clear mode gp border t' r :
  0 < s -> tile_reach q e x y s b t -> pts t = d -> (clear = true \/ same_kind (t_algorithm t) "cube") ->
  t_grid e t "cube" ro clear mode gp border = Ok (t', r) -> engine_shapes e -> cube_reflects e gp (default [] border) r x y s b d t'.
Proof.
  intros Hs HR Hrep HC Hg Heng. unfold cube_reflects. set (data := _ ++ _).
  assert (HA : "cube" ∈ ["mean"; "shoalest"; "cube"]) by (rewrite !elem_of_cons; auto).
  destruct (reach_grid _ _ _ _ _ _ _ _ _ _ _ _ _ _ _ Hs HR HA HC Hg) as (HG & HQ & Hr & HA' & Hcr & _ & l & HT).
  destruct (cube_fresh_ok e t r gp border (pts t) (g_size _ _ HG) Hr (g_in _ _ HG)) as (qq & Hq & Q1 & Q2 & Q3 & Q4 & Q5); [by apply Hcr|].
  assert (Hcall : cube_args e t r gp border (pts t) (ncell t r) (ncell t r) =
    CubeCall (map pz data) (map pthu data) (map ptvu data) (map px data) (map py data)
                 (ncell t r) (ncell t r) x (y + s) (match gp with Some p => default "local" (p_method p) | None => "local" end) (match gp with Some p => default "order1a" (p_iho p) | None => "order1a" end) r
                 (match gp with Some p => default "cube" (p_var p) | None => "cube" end)).
  { unfold cube_args, t_max_y. destruct HQ as (-> & -> & -> & _). rewrite Hrep. by destruct gp. }
  rewrite Hcall in Q2, Q3, Q4, Q5.
  set (call := CubeCall _ _ _ _ _ _ _ _ _ _ _ _ _) in *.
  specialize (Heng call). cbn [cc_numrows cc_numcols call] in Heng.
  inversion Heng as [|? ? [R1 C1] HE1]; subst. inversion HE1 as [|? ? [R2 C2] HE2]; subst.
  inversion HE2 as [|? ? [R3 C3] HE3]; subst. inversion HE3 as [|? ? [R4 C4] _]; subst. clear Heng HE1 HE2 HE3.
  change (cc_numrows call) with (ncell t r) in *. change (cc_numcols call) with (ncell t r) in *.
  assert (Hkb : t_depth_key t = depth_key_of b) by (unfold t_depth_key; by destruct HQ as (_ & _ & _ & ->)).
  destruct (std_layer_total e t "cube" r gp border (pts t) (g_size _ _ HG) Hr (g_in _ _ HG) HA' Hcr) as [Hkeys Hsh].
  assert (Hget : forall name a, cube_layer t qq name = Some a -> layer_of t' r name = Some a /\ shape_is a (ncell t r) (ncell t r)).
  { intros name a Ha. rewrite <- (cube_std e t r gp border (pts t) name qq Hq) in Ha. split; [|by eapply Hsh].
    unfold layer_of. rewrite (gridded_get _ _ _ _ _ _ _ _ _ HT). rewrite <- Ha. apply HT. apply Hkeys. eauto. }
  exists (ncell t r), (arr_round3 (q_depth qq)), (q_density qq), (arr_round3 (q_tpu qq)), (q_hyp qq), (arr_round3 (q_ratio qq)).
  split; [done|]. split; [destruct HQ as (_ & _ & <- & _); apply ncell_cover; [apply HG|done]|]. cbv zeta. fold call.
  change (if b then "intensity" else "depth") with (depth_key_of b). rewrite <- Hkb.
  assert (Hd : t_depth_key t <> "hypothesis_ratio" /\ t_depth_key t <> "total_uncertainty" /\
               t_depth_key t <> "hypothesis_count" /\ t_depth_key t <> "density")
    by (destruct (depth_key_cases t) as [->| ->]; done).
  destruct Hd as (N1 & N2 & N3 & N4).
  destruct (Hget (t_depth_key t) (arr_round3 (q_depth qq))) as [G1 (W1 & W1' & W1'')].
  { unfold cube_layer. rewrite !decide_False by done. by rewrite decide_True. }
  destruct (Hget "density" (q_density qq)) as [G2 (W2 & W2' & W2'')]; [done|].
  destruct (Hget "total_uncertainty" (arr_round3 (q_tpu qq))) as [G3 (W3 & W3' & W3'')]; [done|].
  destruct (Hget "hypothesis_count" (q_hyp qq)) as [G4 (W4 & W4' & W4'')]; [done|].
  destruct (Hget "hypothesis_ratio" (arr_round3 (q_ratio qq))) as [G5 (W5 & W5' & W5'')]; [done|].
  split; [done|]. split; [done|]. split; [done|]. split; [done|]. split; [done|].
  assert (Hmk : forall (a : arr) P, nd_wf a -> nrows a = ncell t r -> ncols a = ncell t r ->
     (forall row col, (row < ncell t r)%nat -> (col < ncell t r)%nat -> exists v, nd_get a row col = Some v /\ (P row col v : Prop)) ->
     layer_is (ncell t r) a P) by (intros a P A1 A2 A3 A4; split; [done|]; split; [done|]; split; [by rewrite A1, A2, A3|done]).
  assert (Hr3 : forall (a : arr) i j c, nd_get a i j = Some c -> nd_get (arr_round3 a) i j = Some (option_map round3 c)).
  { intros a i j c H. unfold arr_round3. rewrite nd_get_map, H. done. }
  split; [|split; [|split; [|split]]].
  - apply Hmk; try done. intros row col Hrow Hcol. eexists. split.
    + apply Hr3. rewrite Q2. by apply place_valid_cell.
    + destruct (nd_get (co_depth (e_cube e call)) _ col) as [[z|]|]; cbn; try done. exists (round3 z). split; [apply round3_spec|done].
  - apply Hmk; try done. intros row col Hrow Hcol. eexists. split.
    + apply Hr3. rewrite Q3. by apply place_valid_cell.
    + destruct (nd_get (co_depth (e_cube e call)) _ col) as [[z|]|]; cbn; try done.
      destruct (nd_get (co_unc (e_cube e call)) _ col) as [[u|]|]; cbn; try done. exists (round3 u). split; [apply round3_spec|done].
  - apply Hmk; try done. intros row col Hrow Hcol. eexists. split.
    + apply Hr3. rewrite Q5. by apply place_valid_cell.
    + destruct (nd_get (co_depth (e_cube e call)) _ col) as [[z|]|]; cbn; try done.
      destruct (nd_get (co_ratio (e_cube e call)) _ col) as [[u|]|]; cbn; try done. exists (round3 u). split; [apply round3_spec|done].
  - apply Hmk; try done. intros row col Hrow Hcol. eexists. split.
    + rewrite Q4. by apply place_valid_cell.
    + by destruct (nd_get (co_depth (e_cube e call)) _ col) as [[z|]|].
  - rewrite Q1. eapply layer_impl; [apply density_spec_layer|]. intros row col v _ _.
    cbv beta. by rewrite (tile_cell_square _ _ _ _ _ _ _ _ _ HQ).
Qed.
Lemma reload_stored m t r name : name ∈ stored_layers -> layer_of (t_reload m t) r name = layer_of t r name.
Proof.
  intros Hn. unfold t_reload. destruct (saves_grid m); [|done]. unfold layer_of. cbn. rewrite dget_dmapv.
  destruct (dget (t_cells t) r) as [l|]; [|done]. cbn [fmap option_fmap option_map mbind option_bind]. rewrite dget_stored_part. by rewrite decide_True.
Qed.
Lemma cube_reload m e gp border r x y s b d t : cube_reflects e gp border r x y s b d t -> cube_reflects e gp border r x y s b d (t_reload m t).
Proof.
  intros (n & depth & density & unc & hyp & ratio & H1 & H2 & H3). cbv zeta in H3. destruct H3 as (L1 & L2 & L3 & L4 & L5 & H3).
  exists n, depth, density, unc, hyp, ratio. split; [done|]. split; [done|]. cbv zeta. unfold stored_layers.
  rewrite !reload_stored by (unfold stored_layers; destruct b; apply (bool_decide_unpack _); vm_compute; exact I). done.
Qed.


(** ** The border points of a tile *)
Lemma buffer_width {T} (O : tile_ops T) g (a : gargs) e dask rez t q size : op_width O t = size -> call_rez O e g a = Ok rez ->
  buffer O dask (grid_auto a) rez t = Ok q -> q = strip_width size dask (ga_rez a).
Proof.
  intros Hw Hr. unfold buffer, parallel_buffer, tenth_width, strip_width, call_rez, grid_auto in *. rewrite Hw. destruct dask as [n|]; [|by intros [= <-]].
  destruct (ga_rez a) as [r|].
  - injection Hr as <-. rewrite bool_decide_eq_true_2 by done. cbn [negb rofopt rbind]. intros [= <-]. unfold qmin.
    destruct (Qle_bool (size # 10) (inject_Z (r * 3))) eqn:E.
    + rewrite bool_decide_eq_false_2; [done|]. apply Qle_bool_iff in E. unfold Qle in E. cbn in E. lia.
    + rewrite bool_decide_eq_true_2; [f_equal; lia|]. destruct (decide (30 * r < size)); [done|]. assert (Qle_bool (size # 10) (inject_Z (r * 3)) = true) by (apply Qle_bool_iff; unfold Qle; cbn; lia). congruence.
  - destruct (bool_decide _) eqn:E; cbn [negb]; [|by intros [= <-]].
    apply bool_decide_eq_true in E. rewrite E in Hr. unfold auto_rez in Hr. destruct (bool_decide _) in Hr; [injection Hr as <-; done|]. injection Hr as <-. done.
Qed.
Lemma border_all {T} (O : tile_ops T) (g : grid T) (a : gargs) e dask rez k t size bd : ga_alg a = "cube" -> op_width O t = size -> call_rez O e g a = Ok rez ->
  borders O g a dask rez k t = Ok bd ->
  exists o, get_tile_neighbor_points O g k (strip_width size dask (ga_rez a)) = Ok o /\ default [] bd = default [] o ++ default [] (ga_border a).
Proof.
  intros Ha Hw Hr Hb. unfold borders, border_for in Hb. rewrite bool_decide_eq_true_2 in Hb by done.
  apply rbind_Ok in Hb as (q & Hq & Hb). apply rbind_Ok in Hb as (o & Ho & Hb). injection Hb as <-.
  apply (buffer_width O g a e dask rez t q size Hw Hr) in Hq as ->. exists o. split; [done|].
  destruct (ga_border a), o; cbn; by rewrite ?app_nil_r.
Qed.

(** ** A grid of tiles *)
Section tiles.
  Context (e : env) (Q : string -> Z -> Prop) (m0 : gmeta) (b : bool) (Hs : 0 < m_tile_size m0).
  Notation s := (m_tile_size m0).
  Lemma sr_cube_core (g : sr_grid) ct lx ly nx ny arr a dask :
    placed m0 (steps_rep e Q s b (m_algorithm (g_meta g))) g ct lx ly nx ny arr -> origins sr_ops g ->
    ga_alg a = "cube" -> full_call a -> engine_shapes e -> exn_of (g_grid sr_ops e g a dask) = None ->
    let g' := st_of (g_grid sr_ops e g a dask) in
    forall k x y t', tile_at g' k = Some t' -> origin_at g k = Some (x, y) ->
    exists r, (forall r0, ga_rez a = Some r0 -> r = r0) /\ r ∈ m_rezs (g_meta g') /\
      cube_reflects e (ga_params a) (border_points s x y (strip_width s dask (ga_rez a)) (all_points ct) ++ default [] (ga_border a))
        r x y s b (filter (here x y s) (all_points ct)) t'.
  Proof using Hs.
    intros HPl Ho Ha Hf He Hx g' k x y t' Ht' Hk. unfold g' in Ht' |- *.
    pose proof (sr_finished e g a dask Ho Hx) as D.
    destruct (tile_at g k) as [t|] eqn:Ht; [|by rewrite (gd_none _ _ _ _ _ _ D k Ht) in Ht'].
    destruct (sr_done_tile e g a dask Ho Hx) as (rez & Hrez & HT). destruct (HT k t Ht) as (t2 & Ht2 & H).
    rewrite Ht2 in Ht'. injection Ht' as <-. cbv zeta in H. rewrite unknown_skip in H by done.
    destruct H as (bd & t1 & r & Hb & Hr & Hg & ->).
    pose proof (placed_loc _ _ _ _ _ _ _ _ _ _ _ _ HPl Hk) as HL. rewrite Ht in HL. destruct HL as (Hne & HR).
    pose proof HR as ((Hsq & Hrep & _) & (f & Hst) & _).
    assert (HPl' : placed m0 (sr_rep s b) g ct lx ly nx ny arr) by (eapply placed_mono; [|exact HPl]; by intros ? ? ? [? _]).
    destruct (border_all sr_ops g a e dask rez k t s bd Ha) as (o & Hbo & Hbd); [by destruct Hsq as (_ & _ & E & _)|done|done|].
    rewrite (strip_points m0 b Hs g ct lx ly nx ny arr k x y _ HPl' Hk) in Hbo. injection Hbo as <-.
    exists r. split.
    { intros r0 Hr0. unfold call_rez in Hrez. rewrite Hr0 in Hrez. injection Hrez as <-. rewrite tile_rez_given in Hg by done.
      assert (HA : known_alg (ga_alg a)) by (rewrite Ha; by right; right).
      destruct (t_grid_inv _ _ _ _ _ _ _ _ _ _ HA Hg) as (Hch & _). by injection Hch as ->. }
    split; [done|]. rewrite Ha in Hg.
    assert (HC : cube_reflects e (ga_params a) (default [] bd) r x y s b (filter (here x y s) (all_points ct)) t1).
    { eapply cube_tile; [exact Hs|by eapply steps_reach| | |exact Hg|exact He].
      - rewrite (tr_data _ _ Hrep). by rewrite content_in_points.
      - eapply steps_kind; [exact HR|]. intros Hc. rewrite <- Ha. apply mismatch_clear; [apply D|]. unfold next_clear in Hc. by destruct (_ && _). }
    rewrite Hbd in HC. replace (default [] (match border_points s x y (strip_width s dask (ga_rez a)) (all_points ct) with [] => None | d => Some d end)) with
      (border_points s x y (strip_width s dask (ga_rez a)) (all_points ct)) in HC by (by destruct (border_points _ _ _ _ _)).
    destruct (g_disk g); [by apply cube_reload|done].
  Qed.
End tiles.

(** ** Whole grids *)
Lemma sr_cube e (P : gargs -> Prop) size b zarr disk g ct a dask : 0 < size -> (forall a, P a -> known_args a) ->
  sr_clean e P size b zarr disk g ct -> ga_alg a = "cube" -> full_call a -> engine_shapes e -> exn_of (g_grid sr_ops e g a dask) = None ->
  let g' := st_of (g_grid sr_ops e g a dask) in
  forall k x y t', tile_at g' k = Some t' -> origin_at g k = Some (x, y) ->
  exists r, (forall r0, ga_rez a = Some r0 -> r = r0) /\ r ∈ m_rezs (g_meta g') /\
    cube_reflects e (ga_params a) (border_points size x y (strip_width size dask (ga_rez a)) (all_points ct) ++ default [] (ga_border a))
      r x y size b (filter (here x y size) (all_points ct)) t'.
Proof.
  intros Hs HP H Ha Hf He Hx g' k x y t' Ht' Hk. unfold g' in *.
  assert (HAl : forall a, P a -> allows (fun _ _ => True) a) by (intros a0 H0; by apply known_allows, HP).
  destruct (sr_clean_inv e (fun _ _ => True) P size b zarr disk Hs HAl g ct H) as (_ & seen & ok & HI).
  assert (Hne : ct <> []).
  { intros ->. pose proof HI as [_ [(E & _)|(Hn & _)]]; [|done]. rewrite (gd_none _ _ _ _ _ _ (sr_finished e g a dask (root_origins sr_ops _ _ _ _ _ _ HI) Hx) k) in Ht'; [done|]. unfold tile_at. by rewrite E. }
  destruct (root_placed _ _ _ _ _ _ HI Hne) as (lx & ly & nx & ny & arr & HPl).
  exact (sr_cube_core e (fun _ _ => True) (new_sr_meta 0 0 size b zarr) b Hs g ct lx ly nx ny arr a dask HPl (root_origins sr_ops _ _ _ _ _ _ HI) Ha Hf He Hx k x y t' Ht' Hk).
Qed.

Lemma vr_cube e (P : gargs -> Prop) size sub b zarr disk g ct a dask : 0 < size -> 0 < sub -> (forall a, P a -> known_args a) ->
  vr_clean e P size sub b zarr disk g ct -> ga_alg a = "cube" -> full_call a -> engine_shapes e -> exn_of (g_grid vr_ops e g a dask) = None ->
  let g' := st_of (g_grid vr_ops e g a dask) in
  forall k x y sg j u v t', tile_at g' k = Some sg -> origin_at g k = Some (x, y) -> tile_at sg j = Some t' -> origin_at sg j = Some (u, v) ->
  exists r o, (forall r0, ga_rez a = Some r0 -> r = r0) /\ r ∈ m_rezs (g_meta g') /\
    o ≡ₚ sub_border_points size sub x y (strip_width size dask (ga_rez a)) (all_points ct) /\
    cube_reflects e (ga_params a) (border_points sub u v (sub # 10) (filter (here x y size) (all_points ct)) ++ o ++ default [] (ga_border a))
      r u v sub false (filter (here u v sub) (filter (here x y size) (all_points ct))) t'.
Proof.
  intros Hs Hsub HP H Ha Hf He Hx g' k x y sg' j u v t' Hsg' Hk Ht' Hj. unfold g' in *.
  assert (HAl : forall a, P a -> allows (fun _ _ => True) a) by (intros a0 H0; by apply known_allows, HP).
  destruct (vr_clean_inv e (fun _ _ => True) P size sub b zarr disk Hs Hsub HAl g ct H) as (_ & seen & ok & HI).
  pose proof (vr_finished e g a dask (vr_origins g) Hx) as D.
  destruct (tile_at g k) as [sg|] eqn:Hsg; [|by rewrite (gd_none _ _ _ _ _ _ D k Hsg) in Hsg'].
  assert (Hne : ct <> []).
  { intros ->. pose proof HI as [_ [(E & _)|(Hn & _)]]; [|done]. unfold tile_at in Hsg. by rewrite E in Hsg. }
  destruct (root_placed _ _ _ _ _ _ HI Hne) as (lx & ly & nx & ny & arr & HPl).
  pose proof (placed_loc _ _ _ _ _ _ _ _ _ _ _ _ HPl Hk) as HL. rewrite Hsg in HL. destruct HL as (Hne' & HR & _).
  change (m_tile_size (new_vr_meta 0 0 size sub b zarr)) with size in Hne', HR.
  destruct (vr_done_tile e g a dask Hx) as (rez & Hrez & HT). destruct (HT k sg Hsg) as (sg2 & Hsg2 & HD).
  rewrite Hsg2 in Hsg'. injection Hsg' as ->.
  assert (Hsk : skip_tile vr_ops a (ga_clear a) sg = false).
  { unfold skip_tile. destruct (decide (ga_regrid a = "update")) as [E|E]; [rewrite (Hf E); cbn; by rewrite andb_false_r|by rewrite bool_decide_eq_false_2]. }
  rewrite Hsk in HD. destruct HD as (bd & Hb & HD). cbv zeta in HD. destruct HD as (Hx2 & -> & Hrz).
  pose proof HR as [_ [(_ & E & _)|(_ & sarr & HPs & _ & Hw & _)]]; [done|].
  destruct (border_all vr_ops g a e dask rez k sg size bd Ha) as (o & Hbo & Hbd); [cbn; by rewrite Hw|done|done|].
  destruct (clean_history_of _ _ _ _ _ _ H) as (seen' & ok' & HH).
  destruct (root_placed _ _ _ _ _ _ (vr_sound_inv e size sub b zarr disk Hs Hsub g ct seen' ok' HH) Hne) as (lx' & ly' & nx' & ny' & arr' & HPl').
  destruct (vr_border_points size sub b zarr Hs Hsub g ct lx' ly' nx' ny' arr' k x y (strip_width size dask (ga_rez a)) HPl' Hk) as (o' & H1 & _ & H2).
  { by apply (vr_border_every size sub b zarr Hs Hsub g ct lx' ly' nx' ny' arr' k x y (strip_width size dask (ga_rez a)) HPl' Hk o). }
  rewrite Hbo in H1. injection H1 as <-.
  set (a' := call_args vr_ops a (grid_auto a) rez (g_meta g) (ga_clear a) bd) in *.
  pose proof (child_origins sr_ops _ _ _ _ _ _ _ HR) as Hor.
  assert (Hj' : origin_at sg j = Some (u, v)).
  { unfold origin_at in Hj |- *. by rewrite (gd_geom _ _ _ _ _ _ (sr_finished e sg a' None Hor Hx2)) in Hj. }
  destruct (sr_cube_core e (fun _ _ => True) (sub0 size sub b zarr x y) false Hsub sg (content_in x y size ct) _ _ _ _ sarr a' None HPs Hor Ha Hf He Hx2 j u v t' Ht' Hj')
    as (r & R1 & R2 & R3).
  exists r, (default [] o). split; [|split; [by apply Hrz|split; [exact H2|]]].
  - intros r0 Hr0. apply R1. unfold a'. cbn. unfold call_rez in Hrez. rewrite Hr0 in Hrez. injection Hrez as <-. by apply tile_rez_given.
  - rewrite content_in_points in R3. unfold a' in R3. cbn [call_args ga_params ga_border ga_rez] in R3. rewrite Hbd in R3. exact R3.
Qed.
