(** What grid() of a whole grid does with an unknown algorithm (C29). *)
From Coq Require Import Lqa.
From Verif Require Import Py Nd Numpy Point Bin Algorithms Tile TileFail Time Meta Disk Grid GridRun GridQuery GridOps Spec TileExec GridExec PyFacts NdFacts NumpyFacts AlgFacts BinFacts
  MiscFacts TileFacts TileGridFacts TileSpecFacts TileRunFacts TileHistFacts ShoalFacts TilePropFacts TileQueryFacts TileUnknownFacts GridBaseFacts GridPlaceFacts GridInvFacts GridRootFacts
  GridEvolveFacts GridSrFacts GridPropFacts GridHistFacts GridRunFacts GridCleanFacts GridUpdateFacts GridDensityFacts GridFlagFacts GridLayerFacts GridReadFacts GridAnswerFacts.
Open Scope Z_scope.

(** ** Cell numbers known to a tile *)
Definition not_at (r : Z) : string -> Z -> Prop := fun _ r' => r' <> r.
Lemma clear_all_idx t rs : t_indices (clear_temp_all t rs) = t_indices t.
Proof. unfold clear_temp_all. revert t. induction rs as [|r rs IH]; intros t; [done|]. cbn [foldl]. by rewrite IH. Qed.
Lemma remove_idx_keys t c : dkeys (t_indices (t_remove_points t c)) = dkeys (t_indices t).
Proof.
  unfold t_remove_points. destruct (dget _ _) as [[s0 e0]|]; [|done]. destruct (t_data t); [|done]. cbv zeta.
  match goal with |- dkeys (t_indices (?x <| t_data := ?a |> <| t_container := ?b |> <| t_changed := ?c |>)) = _ => change (dkeys (t_indices x) = dkeys (t_indices t)) end.
  rewrite clear_all_idx. apply dkeys_dmapv.
Qed.
Lemma add_idx_keys t d c : dkeys (t_indices (t_add_points t d c)) = dkeys (t_indices t).
Proof.
  unfold t_add_points. destruct (t_data t); [|apply dkeys_dmapv]. cbv zeta.
  match goal with |- dkeys (t_indices (?x <| t_changed := ?c |>)) = _ => change (dkeys (t_indices x) = dkeys (t_indices t)) end.
  rewrite clear_all_idx. cbn [t_indices set]. etransitivity; [apply dkeys_dmapv|]. destruct (dmem _ _); [apply remove_idx_keys|done].
Qed.
Lemma steps_no_idx e r x y s b t ct f : 0 < s -> tile_steps e (not_at r) x y s b t ct f -> dget (t_indices t) r = None.
Proof.
  intros Hs H. cut (r ∉ dkeys (t_indices t)). { intros Hk. destruct (dget (t_indices t) r) eqn:E; [|done]. exfalso. apply Hk. apply dget_is_Some. by eexists. }
  induction H as [|t ct f d c H IH Hd|t ct f c H IH|t ct f alg ro clear mode gp border t' r' H IH HA HQ HC Hg|
    t ct f layer ro nodata up t' o H IH Hq|t ct f m H IH].
  - apply not_elem_of_nil.
  - by rewrite add_idx_keys.
  - by rewrite remove_idx_keys.
  - destruct (reach_grid _ _ _ _ _ _ _ _ _ _ _ _ _ _ _ Hs (steps_reach _ _ _ _ _ _ _ _ _ H) HA HC Hg) as (_ & _ & _ & _ & _ & _ & l & HT).
    rewrite (gt_idx _ _ _ _ _ _ _ _ _ HT), dkeys_dset. case_decide; [done|]. rewrite elem_of_app, elem_of_list_singleton. unfold not_at in HQ. intros [?|?]; [done|congruence].
  - destruct (t_query_run _ _ _ _ _ _ _ _ Hq) as (_ & -> & _). done.
  - destruct (reload_run m t) as (_ & -> & _). done.
Qed.

(** ** Single resolution grids *)
(** The tile can be gridded and its cell numbers at [r] are not known. *)
Definition fresh_at (e : env) (r : Z) (t : tile) : Prop := good e t /\ (exists d, t_data t = Some d) /\ dget (t_indices t) r = None.
(** No layer at [r], and marked as gridded. *)
Definition hollow (r : Z) (t : tile) : Prop := (forall name, layer_of t r name = None) /\ t_changed t = false.
(** Every tile is gridded by the call. *)
Definition full_call (a : gargs) : Prop := ga_regrid a = "update" -> ga_clear a = true.

Section sr.
  Context (e : env) (r : Z) (Hp : is_power_of_two (metres e r) = true).
  Lemma unknown_skip {T} (O : tile_ops T) (g : grid T) a k t : full_call a -> skip_tile O a (clear_at O a (ga_clear a) (tile_list g) k) t = false.
  Proof using.
    intros Hf. unfold skip_tile. destruct (decide (ga_regrid a = "update")) as [E|E].
    - unfold clear_at. rewrite (Hf E). cbn. by rewrite andb_false_r.
    - by rewrite bool_decide_eq_false_2.
  Qed.
  Lemma unknown_borders {T} (O : tile_ops T) (g : grid T) a dask k t : ~ known_alg (ga_alg a) -> borders O g a dask (Some r) k t = Ok None.
  Proof using. intros HA. unfold borders, border_for. rewrite bool_decide_eq_false_2; [done|]. intros E. apply HA. by right; right. Qed.
  Lemma unknown_returns (g : sr_grid) a dask : origins sr_ops g -> tiles_known dask g -> (forall k t, tile_at g k = Some t -> fresh_at e r t) ->
    mismatch g a = false -> g_is_empty g = false -> ~ known_alg (ga_alg a) -> ga_rez a = Some r ->
    exn_of (g_grid sr_ops e g a dask) = None.
  Proof using Hp.
    intros Ho Hcn HF HM He HA Hr.
    apply (grid_total sr_ops e tile_keeps tile_keeps_refl tile_keeps_trans (sr_grid_keeps e) sr_reload_keeps t_strip_keeps g a dask (Some r));
      [done..|unfold call_rez; by rewrite Hr|].
    intros k t Ht. unfold entry_result, entry_at. cbn [en_k en_t en_run Nat.add]. destruct (skip_tile _ _ _ t); [by eexists|].
    rewrite (unknown_borders sr_ops g a dask k t HA). cbn [rbind]. destruct (HF k t Ht) as (HG & (d & Hd) & Hi).
    pose proof (unknown_grid e t (ga_alg a) r (next_clear sr_ops a (ga_clear a)) (grid_auto a) (ga_params a) None d HG Hd HA Hp) as U.
    rewrite Hi in U. destruct U as (t' & Hg & _).
    cbn [sr_ops op_grid call_args ga_alg ga_rez ga_clear ga_mode ga_params ga_border].
    rewrite (tile_rez_given sr_ops (g_meta g) a r Hr), Hg. cbn. by eexists.
  Qed.
  Lemma unknown_hollow (g : sr_grid) a dask : origins sr_ops g -> (forall k t, tile_at g k = Some t -> fresh_at e r t) ->
    exn_of (g_grid sr_ops e g a dask) = None -> ~ known_alg (ga_alg a) -> ga_rez a = Some r -> full_call a ->
    forall k t', tile_at (st_of (g_grid sr_ops e g a dask)) k = Some t' -> hollow r t'.
  Proof using Hp.
    intros Ho HF Hx HA Hr Hf k t' Ht'.
    destruct (tile_at g k) as [t|] eqn:Ht; [|by rewrite (gd_none _ _ _ _ _ _ (sr_finished e g a dask Ho Hx) k Ht) in Ht'].
    destruct (sr_done_tile e g a dask Ho Hx) as (rez & Hrez & HT). destruct (HT k t Ht) as (t2 & Ht2 & H).
    rewrite Ht2 in Ht'. injection Ht' as ->. cbv zeta in H. rewrite (unknown_skip sr_ops g a k t Hf) in H.
    destruct H as (bd & t1 & r1 & _ & _ & Hg & ->).
    unfold call_rez in Hrez. rewrite Hr in Hrez. injection Hrez as <-. rewrite (tile_rez_given sr_ops (g_meta g) a r Hr) in Hg.
    destruct (HF k t Ht) as (HG & (d & Hd) & Hi).
    pose proof (unknown_grid e t (ga_alg a) r (next_clear sr_ops a (ga_clear a)) (grid_auto a) (ga_params a) bd d HG Hd HA Hp) as U.
    rewrite Hi in U. destruct U as (t3 & Hg' & U1 & U2 & _). rewrite Hg in Hg'. injection Hg' as <- _.
    assert (H1 : hollow r t1). { split; [|done]. intros name. unfold layer_of. by rewrite U1. }
    destruct (g_disk g); [|done]. split; [|exact U2]. intros name. unfold layer_of, t_reload. cbn [saves_grid t_cells set]. rewrite dget_dmapv, U1. cbn.
    done.
  Qed.
End sr.

(** Earlier calls were made with a known algorithm and another resolution than [r]. *)
Definition other_rez (r : Z) (a : gargs) : Prop := known_args a /\ exists r', ga_rez a = Some r' /\ r' <> r.
Lemma other_allows r a : other_rez r a -> allows (not_at r) a.
Proof. intros (HA & r' & Hr & Hne). split; [done|]. by rewrite Hr. Qed.
Lemma steps_fresh e r size b alg t x y ct : 0 < size -> steps_rep e (not_at r) size b alg t x y ct -> ct <> [] -> fresh_at e r t.
Proof.
  intros Hs HR Hne. pose proof HR as (_ & (f & Hst) & _). split; [by eapply steps_good|]. split; [by eapply steps_data|]. by eapply steps_no_idx.
Qed.
Lemma unmatched {T} (g : grid T) a : ga_clear a = true \/ m_algorithm (g_meta g) = "" -> mismatch g a = false.
Proof. intros [H|H]; unfold mismatch; rewrite H; [by rewrite andb_false_r|done]. Qed.

Lemma sr_unknown e size b zarr disk g ct a dask r :
  0 < size -> sr_clean e (other_rez r) size b zarr disk g ct -> ct <> [] -> ~ known_alg (ga_alg a) -> ga_rez a = Some r ->
  is_power_of_two (metres e r) = true -> ga_clear a = true \/ m_algorithm (g_meta g) = "" -> full_call a ->
  exn_of (g_grid sr_ops e g a dask) = None /\
  forall k t', tile_at (st_of (g_grid sr_ops e g a dask)) k = Some t' -> hollow r t'.
Proof.
  intros Hs H Hne HA Hr Hp HM Hf.
  destruct (sr_clean_inv e (not_at r) (other_rez r) size b zarr disk Hs (other_allows r) g ct H) as (_ & seen & ok & HI).
  assert (Ho : origins sr_ops g) by (by eapply root_origins).
  assert (HF : forall k t, tile_at g k = Some t -> fresh_at e r t).
  { intros k t Ht. destruct (root_rep _ _ _ _ _ _ _ _ HI Ht) as (x & y & ct' & HR & Hne'). by eapply steps_fresh. }
  assert (Hx : exn_of (g_grid sr_ops e g a dask) = None).
  { apply (unknown_returns e r Hp); try done; [by eapply root_tiles_known|by apply unmatched|].
    rewrite (root_is_empty (new_sr_meta 0 0 size b zarr) _ Hs _ _ _ _ HI). by apply bool_decide_eq_false_2. }
  split; [done|]. by apply (unknown_hollow e r Hp).
Qed.

Lemma vr_unknown e size sub b zarr disk g ct a dask r :
  0 < size -> 0 < sub -> vr_clean e (other_rez r) size sub b zarr disk g ct -> ct <> [] -> ~ known_alg (ga_alg a) -> ga_rez a = Some r ->
  is_power_of_two (metres e r) = true -> ga_clear a = true \/ m_algorithm (g_meta g) = "" -> full_call a ->
  exn_of (g_grid vr_ops e g a dask) = None /\
  forall k sg' j t', tile_at (st_of (g_grid vr_ops e g a dask)) k = Some sg' -> tile_at sg' j = Some t' -> hollow r t'.
Proof.
  intros Hs Hsub H Hne HA Hr Hp HM Hf.
  destruct (vr_clean_inv e (not_at r) (other_rez r) size sub b zarr disk Hs Hsub (other_allows r) g ct H) as (_ & seen & ok & HI).
  assert (HF : forall k sg, tile_at g k = Some sg -> forall a', ga_alg a' = ga_alg a -> ga_rez a' = Some r -> ga_clear a' = ga_clear a ->
    origins sr_ops sg /\ (forall j t, tile_at sg j = Some t -> fresh_at e r t) /\ mismatch sg a' = false /\ g_is_empty sg = false).
  { intros k sg Ht a' E1 E2 E3. destruct (root_rep _ _ _ _ _ _ _ _ HI Ht) as (x & y & ct' & [HC HS] & Hne').
    split; [by eapply child_origins|]. split.
    - intros j t Hj. destruct (child_rep _ _ _ _ _ _ _ _ _ HC Hj) as (u & v & ct2 & HR & Hne2). by eapply steps_fresh.
    - split; [|by rewrite (child_is_empty (sub0 size sub b zarr x y) _ _ _ _ _ _ Hsub HC), bool_decide_eq_false_2].
      apply unmatched. rewrite E3. destruct HM as [HM|HM]; [by left|right]. destruct HS as [S|[S _]]; [done|congruence]. }
  assert (Hx : exn_of (g_grid vr_ops e g a dask) = None).
  { apply (grid_total vr_ops e sub_keeps sub_keeps_refl sub_keeps_trans (vr_grid_keeps e) vr_reload_keeps g_strip_keeps g a dask (Some r));
      [apply vr_origins|by eapply root_tiles_known|by apply unmatched| |unfold call_rez; by rewrite Hr|].
    { rewrite (root_is_empty (new_vr_meta 0 0 size sub b zarr) _ Hs _ _ _ _ HI). by apply bool_decide_eq_false_2. }
    intros k sg Ht. unfold entry_result, entry_at. cbn [en_k en_t en_run Nat.add]. destruct (skip_tile _ _ _ sg); [by eexists|].
    rewrite (unknown_borders r vr_ops g a dask k sg HA). cbn [rbind]. cbn [vr_ops grid_ops op_grid op_sr]. rewrite andb_false_r. set (a' := call_args _ _ _ _ _ _ _).
    destruct (HF k sg Ht a') as (F1 & F2 & F3 & F4); [done|unfold a', call_args; cbn [ga_rez]; by apply tile_rez_given| |].
    { unfold a', call_args, next_clear. cbn [ga_clear vr_ops grid_ops op_sr]. by rewrite andb_false_r. }
    rewrite (unknown_returns e r Hp sg a' None F1 (tiles_known_none sg) F2 F3 F4); [by eexists|done|unfold a', call_args; cbn [ga_rez]; by apply tile_rez_given]. }
  split; [done|]. intros k sg' j t' Hk Hj. destruct (vr_done_tile e g a dask Hx) as (rez & Hrez & HT).
  destruct (tile_at g k) as [sg|] eqn:Ht.
  2:{ destruct (vr_finished e g a dask (vr_origins g) Hx) as [_ _ _ _ _ _ D _]. by rewrite (D k Ht) in Hk. }
  destruct (HT k sg Ht) as (sg2 & Ht' & HS). rewrite Ht' in Hk. injection Hk as ->. 
  assert (Hsk : skip_tile vr_ops a (ga_clear a) sg = false).
  { unfold skip_tile. destruct (decide (ga_regrid a = "update")) as [E|E]; [by rewrite (Hf E), andb_false_r|by rewrite bool_decide_eq_false_2]. }
  rewrite Hsk in HS.
  destruct HS as (bd & Hb & HS). cbv zeta in HS. destruct HS as (Hx2 & -> & _).
  assert (Hr' : ga_rez (call_args vr_ops a (grid_auto a) rez (g_meta g) (ga_clear a) bd) = Some r).
  { unfold call_rez, grid_auto, tile_rez, call_args in *. rewrite Hr in *. injection Hrez as <-. done. }
  assert (Hc' : ga_clear (call_args vr_ops a (grid_auto a) rez (g_meta g) (ga_clear a) bd) = ga_clear a).
  { unfold call_args, next_clear. cbn [ga_clear vr_ops grid_ops op_sr]. done. }
  assert (Ha' : ga_alg (call_args vr_ops a (grid_auto a) rez (g_meta g) (ga_clear a) bd) = ga_alg a) by done.
  assert (Hf' : full_call (call_args vr_ops a (grid_auto a) rez (g_meta g) (ga_clear a) bd)).
  { unfold full_call. rewrite Hc'. exact Hf. }
  set (a' := call_args _ _ _ _ _ _ _) in *. clearbody a'.
  destruct (HF k sg Ht a' Ha' Hr' Hc') as (F1 & F2 & F3 & F4).
  eapply (unknown_hollow e r Hp sg a' None F1 F2 Hx2); [by rewrite Ha'|done|done|exact Hj].
Qed.

(** ** The name is recorded *)
Lemma finished_alg {T} (O : tile_ops T) e (g : grid T) a dask g' : grid_done O e g a dask g' -> m_algorithm (g_meta g') = ga_alg a.
Proof. intros D. destruct (gd_meta _ _ _ _ _ _ D) as (rz & -> & _). done. Qed.
Lemma refused {T} (O : tile_ops T) e (g : grid T) a dask : m_algorithm (g_meta g) <> "" -> m_algorithm (g_meta g) <> ga_alg a -> ga_clear a = false ->
  g_grid O e g a dask = Out g [] (Some ValueError).
Proof.
  intros H1 H2 H3. pose proof (g_grid_calls O e g a dask) as H. unfold mismatch in H. rewrite !bool_decide_eq_false_2, H3 in H by done. exact H.
Qed.
