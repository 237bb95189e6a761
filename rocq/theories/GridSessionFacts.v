(** Single resolution grids that are saved, loaded and worked on again (C108). *)
From Verif Require Import Py Nd Numpy Point Bin Algorithms Tile Time Meta Disk Grid GridRun GridQuery GridOps Export Spec TileExec GridExec Store StoreExec SessionSpec.
From Verif Require Import PyFacts NdFacts NumpyFacts BinFacts TileFacts TileGridFacts TileSpecFacts TileRunFacts TileHistFacts TilePropFacts TileQueryFacts.
From Verif Require Import GridBaseFacts GridPlaceFacts GridInvFacts GridRootFacts GridEvolveFacts GridSrFacts GridPropFacts GridHistFacts GridRunFacts GridCleanFacts GridUpdateFacts GridCountFacts.
From Verif Require Import GridDensityFacts GridFlagFacts GridLayerFacts GridReadFacts GridAnswerFacts.
From Verif Require Import FsFacts TileStoreFacts CrashFacts GridStoreFacts GridLoadFacts.
Open Scope Z_scope.

(** ** One tile *)
Record tidy (e : env) (t : tile) : Prop := {
  td_good : good e t; td_exact : exact_layers e t;
  td_cells : NoDup (dkeys (t_cells t)); td_idx : NoDup (dkeys (t_indices t)) }.
Lemma tidy_plain e t : tidy e t -> is_Some (t_data t) -> plain_tile t.
Proof. intros [H1 H2 H3 H4] Hd. by apply (good_plain e). Qed.
Lemma cells_keys_remove t c : dkeys (t_cells (t_remove_points t c)) = dkeys (t_cells t).
Proof.
  unfold t_remove_points. destruct (dget _ _) as [[s0 e0]|]; [|done]. destruct (t_data t); [|done]. cbv zeta.
  rewrite clear_temp_all_eq. cbn [t_cells]. apply dkeys_clear_temp_cells.
Qed.
Lemma cells_keys_add t d c : dkeys (t_cells (t_add_points t d c)) = dkeys (t_cells t).
Proof.
  unfold t_add_points. destruct (t_data t); [|done]. cbv zeta. rewrite clear_temp_all_eq. etransitivity; [apply dkeys_clear_temp_cells|].
  cbn. destruct (dmem _ _); [apply cells_keys_remove|done].
Qed.
Lemma tidy_new e x y s b : 0 < s -> tidy e (new_tile x y s b).
Proof. intros Hs. split; [by apply good_new|by intros r l alg Hl|apply NoDup_nil_2..]. Qed.
Lemma tidy_add e t d c : tidy e t -> Forall (in_tile t) d -> tidy e (t_add_points t d c).
Proof.
  intros [H1 H2 H3 H4] Hd. split; [by apply good_add|by apply exact_add| |by apply add_indices_nodup]. by rewrite cells_keys_add.
Qed.
Lemma tidy_remove e t c : tidy e t -> tidy e (t_remove_points t c).
Proof.
  intros [H1 H2 H3 H4]. split; [by apply good_remove|by apply exact_remove| |by apply remove_indices_nodup]. by rewrite cells_keys_remove.
Qed.
Lemma tidy_reload e m t : tidy e t -> tidy e (t_reload m t).
Proof.
  intros [H1 H2 H3 H4]. split; [by apply good_reload|by apply exact_reload| |].
  - unfold t_reload. destruct (saves_grid m); [|done]. cbn [t_cells]. by apply nodup_dmapv.
  - unfold t_reload. by destruct (saves_grid m).
Qed.
Lemma tidy_grid e t alg ro clear mode gp border t' r : tidy e t -> known_alg alg -> (clear = true \/ same_kind (t_algorithm t) alg) ->
  t_grid e t alg ro clear mode gp border = Ok (t', r) -> tidy e t' /\ t_algorithm t' = Some alg /\ t_changed t' = false.
Proof.
  intros [H1 H2 H3 H4] HA HC Hg.
  assert (HC' : clear = true \/ compat e t alg) by (destruct HC; [by left|right; by apply compat_kind]).
  destruct (t_grid_inv_ok _ _ _ _ _ _ _ _ _ _ H1 HA HC' Hg) as (l' & HT & _). split; [|split; [apply HT|apply HT]]. split.
  - apply HT.
  - by eapply exact_grid.
  - rewrite (gt_cells _ _ _ _ _ _ _ _ _ HT). apply NoDup_dset. destruct clear; [apply NoDup_nil_2|].
    by rewrite (dkeys_dmapkv _ (t_cells t) : dkeys (t_cells (clear_temp_data t r)) = _).
  - rewrite (gt_idx _ _ _ _ _ _ _ _ _ HT). by apply NoDup_dset.
Qed.
(** A loaded tile has what the saved tile has. *)
Definition neat (t : tile) : Prop := NoDup (dkeys (t_cells t)) /\ dkeys (t_indices t) = dkeys (t_cells t).
Definition reloaded (t t' : tile) : Prop := same_tile t t' /\ neat t'.
Lemma same_frame_of t t' : same_tile t t' -> same_frame t t'.
Proof. intros []. by split. Qed.
Lemma same_rep t t' ct : same_tile t t' -> tile_rep t ct -> tile_rep t' ct.
Proof. intros S [R1 R2 R3 R4]. split; [done|unfold pts in *; by rewrite (st_data _ _ S)|by rewrite (st_data _ _ S)|by rewrite (st_container _ _ S)]. Qed.
Lemma same_cells t t' r l' : same_tile t t' -> dget (t_cells t') r = Some l' -> exists l, dget (t_cells t) r = Some l /\ forall name, dget l' name = dget l name.
Proof.
  intros S Hl. assert (Hr : r ∈ dkeys (t_cells t)) by (rewrite <- (st_rezs _ _ S); apply dget_is_Some; by rewrite Hl).
  apply dget_is_Some in Hr as [l Hr]. exists l. split; [done|]. intros name. pose proof (st_layers _ _ S r name) as H. unfold layer_of in H. by rewrite Hl, Hr in H.
Qed.
Lemma tidy_load e t t' : tidy e t -> reloaded t t' -> tidy e t'.
Proof.
  intros [G X N1 N2] [S [M1 M2]]. pose proof (same_frame_of _ _ S) as F.
  assert (Hk : t_depth_key t' = t_depth_key t) by (unfold t_depth_key; by rewrite (st_backscatter _ _ S)).
  assert (Hn : forall r, ncell t' r = ncell t r) by (intros; unfold ncell; by rewrite (st_size _ _ S)).
  split; [|..].
  - split.
    + destruct (g_rep _ _ G) as [ct HR]. exists ct. by eapply same_rep.
    + intros r idx Hi. assert (Hr : r ∈ dkeys (t_cells t)).
      { rewrite <- (st_rezs _ _ S), <- M2. apply dget_is_Some. by rewrite Hi. }
      rewrite (st_indices _ _ S r Hr) in Hi. unfold pts. rewrite (st_data _ _ S). eapply Forall2_impl; [exact (g_cache _ _ G r idx Hi)|].
      intros p i. by rewrite (same_frame_cellno t t').
    + rewrite (st_size _ _ S). apply G.
    + unfold pts. rewrite (st_data _ _ S). eapply Forall_impl; [apply (g_in _ _ G)|]. intros p. unfold in_tile. by rewrite (st_min_x _ _ S), (st_min_y _ _ S), (st_size _ _ S).
    + intros r l' Hl. destruct (same_cells t t' r l' S Hl) as (l & Hl0 & He).
      assert (Hr : r ∈ dkeys (t_cells t)) by (apply dget_is_Some; by rewrite Hl0).
      destruct (g_cells _ _ G r l Hl0) as (G1 & G2 & G3 & G4 & alg & G5 & G6 & G7 & G8).
      rewrite (st_indices _ _ S r Hr), (st_edges_x _ _ S r Hr), (st_edges_y _ _ S r Hr), (st_min_x _ _ S), (st_min_y _ _ S), Hn, (st_algorithm _ _ S).
      split; [done|]. split; [done|]. split; [done|]. split; [done|]. exists alg. split; [done|]. split; [done|]. split.
      * intros name. rewrite Hk, He. apply G7.
      * intros name a. rewrite He, Hn. apply G8.
  - intros r l' alg Hl Ha name Hna. destruct (same_cells t t' r l' S Hl) as (l & Hl0 & He). rewrite He in Hna. rewrite (st_algorithm _ _ S) in Ha. rewrite Hk. by eapply X.
  - done.
  - by rewrite M2.
Qed.
Lemma current_load e sa r t t' : same_tile t t' -> current e sa r t -> current e sa r t'.
Proof.
  intros S C. pose proof (same_frame_of _ _ S) as F. pose proof C as [C1 C2 C3 (o & C4 & C5 & C6) C7 C8 [C9 C9'] C10].
  assert (Hr : r ∈ dkeys (t_cells t)). { apply dget_is_Some. unfold layer_of in C3. by destruct (dget (t_cells t) r). }
  assert (Hk : t_depth_key t' = t_depth_key t) by (unfold t_depth_key; by rewrite (st_backscatter _ _ S)).
  assert (Hp : pts t' = pts t) by (unfold pts; by rewrite (st_data _ _ S)).
  assert (Hn : ncell t' r = ncell t r) by (unfold ncell; by rewrite (st_size _ _ S)).
  split; [done|..].
  - rewrite Hk, (st_layers _ _ S), C2, Hp. f_equal. symmetry. by apply depth_spec_frame.
  - rewrite (st_layers _ _ S), C3, Hp. f_equal. symmetry. by apply density_spec_frame.
  - exists o. rewrite Hp, !(st_layers _ _ S). by rewrite (fresh_out_frame _ _ _ _ _ _ F).
  - by rewrite (st_algorithm _ _ S).
  - rewrite (st_indices _ _ S r Hr), C8, Hp. f_equal. apply map_ext. intros p. by apply cellno_frame.
  - unfold edges_now. by rewrite (st_edges_x _ _ S r Hr), (st_edges_y _ _ S r Hr), (st_min_x _ _ S), (st_min_y _ _ S), Hn.
  - intros sx. rewrite !(st_layers _ _ S). intros (sy & H1 & H2)%C10. exists sy. split; [done|]. rewrite <- H2. by apply slopes_frame.
Qed.
Lemma load_reloaded F t : tile_stored F t -> exists t', load_sr_tile F = Ok (Some t') /\ reloaded t t'.
Proof.
  intros H. destruct (load_stored F t H) as (t' & H1 & H2). exists t'. split; [done|]. split; [done|].
  destruct (loaded_fields F t SaveAll None H) as (L & EX & EY & I & d & Hd & Hrs & HL & HE & HT). unfold load_sr_tile in H1. rewrite HT in H1. injection H1 as <-.
  cbn [saves_points saves_grid default from_option id new_tile t_cells t_edges_x t_edges_y t_indices] in *.
  assert (HK : forall V (f : Z -> V) rs (d0 : dict Z V), NoDup (dkeys d0 ++ rs) -> dkeys (foldl (fun d r => dset d r (f r)) d0 rs) = dkeys d0 ++ rs).
  { intros V f rs. induction rs as [|r rs IH]; intros d0 Hn; [by rewrite app_nil_r|]. cbn [foldl].
    assert (Hr : r ∉ dkeys d0). { intros Hr. apply NoDup_app in Hn as (_ & Hn & _). apply (Hn r Hr). left. }
    assert (E : dkeys (dset d0 r (f r)) = dkeys d0 ++ [r]) by (rewrite dkeys_dset; by rewrite decide_False).
    rewrite IH; rewrite E; rewrite <- app_assoc; done. }
  unfold neat. cbn [t_cells t_indices]. rewrite !HK; cbn [dkeys app]; [split; [|done]|..]; apply np_unique_NoDup.
Qed.

(** ** Tiles in a grid *)
Section rep.
  (** [Q]: the algorithm and resolution that all calls of grid() use, if they all use the same. *)
  Context (e : env) (Q : option (simple_algorithm * Z)) (size : Z) (b : bool) (Hsize : 0 < size).
  Definition fresh (t : tile) : Prop :=
    match Q with Some (sa, r) => is_Some (t_data t) -> t_changed t = false -> current e sa r t | None => True end.
  Definition asked (a : gargs) : Prop :=
    known_args a /\ match Q with Some (sa, r) => plain_args sa r a | None => True end.
  Definition sess_rep (alg : string) (t : tile) (x y : Z) (ct : content) : Prop :=
    sr_rep size b t x y ct /\ tidy e t /\ alg_is t alg /\ fresh t.
  Lemma fresh_changed t : t_changed t = true -> fresh t.
  Proof using. intros H. unfold fresh. destruct Q as [[sa r]|]; [|done]. by rewrite H. Qed.
  Lemma fresh_reload m t : fresh t -> fresh (t_reload m t).
  Proof using.
    unfold fresh. destruct Q as [[sa r]|]; [|done]. destruct (reload_fields m t) as (_ & -> & _ & -> & _). intros H H1 H2.
    eapply current_keeps; [apply sr_reload_keeps|intros; by apply reload_plain|apply reload_run|intros C; by apply reload_slopes, C|by apply H].
  Qed.
  Lemma fresh_load t t' : same_tile t t' -> fresh t -> fresh t'.
  Proof using.
    intros S. unfold fresh. destruct Q as [[sa r]|]; [|done]. rewrite (st_data _ _ S), (st_changed _ _ S). intros H H1 H2. eapply current_load; [exact S|by apply H].
  Qed.
  Lemma sess_laws m0 alg : m_tile_size m0 = size -> m_backscatter m0 = b -> tile_laws sr_ops m0 (sess_rep alg).
  Proof using Hsize.
    intros E1 E2. pose proof (sr_laws m0) as L. rewrite E1, E2 in L. split.
    - intros m disk x y F. split; [by apply (tl_build _ _ _ L)|]. cbn. split; [apply tidy_new; by rewrite (mf_size _ _ F), E1|]. split; [done|].
      unfold fresh. destruct Q as [[sa r]|]; [|done]. by intros [? ?].
    - intros t x y ct d a (H1 & H2 & H3 & H4) Hd Hin Hc Hn. destruct (tl_add _ _ _ L t x y ct d a H1 Hd Hin Hc Hn) as [L1 L2].
      split; [done|]. split; [done|]. cbn. split; [|split].
      + apply tidy_add; [done|]. rewrite E1 in Hin. eapply Forall_impl; [exact Hin|]. cbv beta. intros p. destruct H1 as ((Q1 & Q2 & Q3 & _) & _). unfold in_tile. by rewrite Q1, Q2, Q3.
      + unfold alg_is. rewrite (add_alg _ _ _ ct); [done|apply H1].
      + apply fresh_changed. apply (add_fields t d (a_container a) ct). apply H1.
    - intros t x y ct c (H1 & H2 & H3 & H4). destruct (tl_remove _ _ _ L t x y ct c H1) as [L1 L2].
      split; [done|]. split; [done|]. cbn. split; [by apply tidy_remove|]. split; [unfold alg_is; by rewrite remove_alg|].
      destruct (decide (c ∈ ct.*1)) as [Hc|Hc]; [|by rewrite (t_remove_absent t c ct); [|apply H1|]].
      apply fresh_changed. eapply remove_fields; [apply H1|done].
    - intros t x y ct (H1 & _). by apply (tl_empty _ _ _ L t x y).
    - intros t x y ct (H1 & _). by apply (tl_count _ _ _ L t x y).
    - intros md t x y ct (H1 & H2 & H3 & H4). split; [by apply (tl_reload _ _ _ L)|]. cbn. split; [by apply tidy_reload|]. split; [|by apply fresh_reload].
      unfold alg_is. by destruct (reload_fields md t) as (_ & _ & _ & _ & ->).
  Qed.
  Lemma sess_reload alg m t : carry (sess_rep alg) (sess_rep alg) t (t_reload m t).
  Proof using.
    intros x y ct (H1 & H2 & H3 & H4). split; [eapply sr_rep_keeps; [apply sr_reload_keeps|done]|]. split; [by apply tidy_reload|]. split; [|by apply fresh_reload].
    unfold alg_is. by destruct (reload_fields m t) as (_ & _ & _ & _ & ->).
  Qed.
  Lemma sess_load alg t t' : reloaded t t' -> carry (sess_rep alg) (sess_rep alg) t t'.
  Proof using.
    intros HL x y ct ((H1 & H1' & H1'') & H2 & H3 & H4). pose proof (proj1 HL) as S. split.
    { split; [eapply at_square_frame; [by apply same_frame_of|done]|]. split; [by eapply same_rep|done]. }
    split; [by eapply tidy_load|]. split; [unfold alg_is; by rewrite (st_algorithm _ _ S)|by eapply fresh_load].
  Qed.
  Lemma sess_kind alg0 alg clear t x y ct : sess_rep alg0 t x y ct -> (clear = false -> alg0 = "" \/ alg0 = alg) ->
    clear = true \/ same_kind (t_algorithm t) alg.
  Proof using.
    intros (_ & _ & H3 & _) HC. destruct clear; [by left|right]. unfold same_kind. destruct (t_algorithm t) as [a0|] eqn:E; [|done].
    destruct (H3 a0 E) as [-> Hk]. destruct (HC eq_refl) as [-> | ->]; [|done]. by destruct Hk as [|[|]].
  Qed.
  Lemma sess_grid_tile alg0 a ro clear mode gp border t t' r x y ct :
    sess_rep alg0 t x y ct -> asked a -> (clear = false -> alg0 = "" \/ alg0 = ga_alg a) -> (forall sa r0, Q = Some (sa, r0) -> ro = Some r0) ->
    t_grid e t (ga_alg a) ro clear mode gp border = Ok (t', r) -> sess_rep (ga_alg a) t' x y ct.
  Proof using Hsize.
    intros HR [HA HQ] HC Hro Hg. pose proof (sess_kind _ _ _ _ _ _ _ HR HC) as HK. destruct HR as (H1 & H2 & H3 & H4). pose proof HA as HA'. apply known_elem in HA'.
    destruct (tidy_grid _ _ _ _ _ _ _ _ _ _ H2 HA' HK Hg) as (T1 & T2 & T3).
    split; [eapply sr_rep_keeps; [by eapply t_grid_keeps|done]|]. split; [done|]. split; [intros a0; rewrite T2; by intros [= <-]|].
    unfold fresh. destruct Q as [[sa r0]|] eqn:EQ; [|done]. intros _ _. destruct HQ as [HQ1 HQ2]. rewrite (Hro sa r0 eq_refl), HQ1 in Hg.
    assert (r = r0) as ->. { assert (K : known_alg (alg_name sa)) by apply known_elem, alg_name_elem. destruct (t_grid_inv _ _ _ _ _ _ _ _ _ _ K Hg) as (Hch & _). cbn in Hch. by injection Hch. }
    rewrite HQ1 in HK. eapply good_current; [apply H2|apply H1|exact HK|exact Hg].
  Qed.
  Lemma sess_evolve g a dask : origins sr_ops g -> exn_of (g_grid sr_ops e g a dask) = None -> asked a ->
    let g' := st_of (g_grid sr_ops e g a dask) in
    evolve (carry (sess_rep (m_algorithm (g_meta g))) (sess_rep (ga_alg a))) g g' /\ m_algorithm (g_meta g') = ga_alg a.
  Proof using Hsize.
    intros Ho Hx HA g'. pose proof (sr_finished e g a dask Ho Hx) as D. split.
    2:{ destruct (gd_meta _ _ _ _ _ _ D) as (rz & Hm & _). unfold g'. by rewrite Hm. }
    apply (evolve_strengthen tile_keeps).
    { apply evolve_grid; [apply tile_keeps_refl|apply tile_keeps_trans|apply sr_grid_keeps|apply sr_reload_keeps]. }
    pose proof (mismatch_clear g a (gd_match _ _ _ _ _ _ D)) as HC.
    intros k t t' Ht Ht' x y ct HR.
    destruct (sr_done_tile e g a dask Ho Hx) as (rez & Hrez & HT). destruct (HT k t Ht) as (t2 & Ht2 & H).
    unfold g' in Ht'. rewrite Ht2 in Ht'. injection Ht' as <-. cbv zeta in H. destruct (skip_tile _ _ _ t) eqn:Hs.
    - destruct H as [-> _]. destruct HR as (R1 & R2 & R3 & R4). split; [done|]. split; [done|]. split; [|done]. intros a0 H0. destruct (R3 a0 H0) as [-> Hk].
      split; [|done]. unfold skip_tile in Hs. apply andb_true_iff in Hs as [Hs _]. apply andb_true_iff in Hs as [_ Hs].
      apply negb_true_iff in Hs. unfold clear_at in Hs. apply orb_false_iff in Hs as [Hs _].
      destruct (HC Hs) as [E|E]; [|done]. rewrite E in Hk. by destruct Hk as [|[|]].
    - destruct H as (bd & t1 & r & Hb & Hr & Hg & ->).
      assert (HS : sess_rep (ga_alg a) t1 x y ct).
      { eapply sess_grid_tile; [exact HR|exact HA| | |exact Hg].
        - intros Hc. apply HC. unfold next_clear in Hc. by destruct (_ && _).
        - intros sa r0 EQ. destruct HA as [_ HA]. rewrite EQ in HA. destruct HA as [_ HA]. unfold call_rez in Hrez. rewrite HA in Hrez. injection Hrez as <-. by apply tile_rez_given. }
      destruct (g_disk g); [|done]. by apply sess_reload.
  Qed.
  Definition sess_tiles (g : sr_grid) : Prop :=
    forall k t, tile_at g k = Some t -> exists x y ct, sess_rep (m_algorithm (g_meta g)) t x y ct /\ ct <> [].
  Lemma sess_has_data alg t x y ct : sess_rep alg t x y ct -> ct <> [] -> is_Some (t_data t).
  Proof using. intros ((_ & HT & _) & _) Hne. destruct (t_data t) eqn:E; [eauto|]. by destruct (Hne (tr_none _ _ HT E)). Qed.
  (** After gridding with one of the simple algorithms at one resolution: in full mode any grid, in update mode
      one that was only gridded so before. *)
  Lemma sess_current g a dask sa r : origins sr_ops g -> sess_tiles g -> plain_args sa r a ->
    (Q = Some (sa, r) \/ ga_regrid a <> "update" \/ ga_clear a = true) -> exn_of (g_grid sr_ops e g a dask) = None ->
    forall k t, tile_at (st_of (g_grid sr_ops e g a dask)) k = Some t -> current e sa r t.
  Proof using Hsize.
    intros Ho HS [Ha Hr] HQ Hx k t Ht.
    destruct (tile_at g k) as [t0|] eqn:Ht0; [|by rewrite (gd_none _ _ _ _ _ _ (sr_finished e g a dask Ho Hx) k Ht0) in Ht].
    destruct (HS k t0 Ht0) as (x0 & y0 & ct0 & HR0 & Hne).
    destruct (sr_done_tile e g a dask Ho Hx) as (rez & Hrez & HTl). destruct (HTl k t0 Ht0) as (t2 & Ht2 & HH).
    rewrite Ht in Ht2. injection Ht2 as <-. cbv zeta in HH. destruct (skip_tile _ _ _ t0) eqn:Hs.
    - destruct HH as [-> _]. unfold skip_tile in Hs. apply andb_true_iff in Hs as [Hs Hch]. apply andb_true_iff in Hs as [Hm Hcl].
      apply bool_decide_eq_true in Hm. apply negb_true_iff in Hcl, Hch. unfold clear_at in Hcl. apply orb_false_iff in Hcl as [Hcl _].
      pose proof (sess_has_data _ _ _ _ _ HR0 Hne) as Hd. destruct HR0 as (_ & _ & _ & HF). unfold fresh in HF.
      destruct HQ as [HQ|[?|?]]; [|done|congruence]. rewrite HQ in HF. by apply HF.
    - destruct HH as (bd & t1 & r1 & _ & _ & Hg & ->).
      unfold call_rez in Hrez. rewrite Hr in Hrez. injection Hrez as <-. rewrite (tile_rez_given sr_ops (g_meta g) a r Hr) in Hg.
      assert (HK : next_clear sr_ops a (ga_clear a) = true \/ same_kind (t_algorithm t0) (ga_alg a)).
      { eapply sess_kind; [exact HR0|]. intros Hc. apply (mismatch_clear g a (gd_match _ _ _ _ _ _ (sr_finished e g a dask Ho Hx))). unfold next_clear in Hc. by destruct (_ && _). }
      rewrite Ha in Hg, HK.
      assert (r1 = r) as ->. { assert (K : known_alg (alg_name sa)) by apply known_elem, alg_name_elem. destruct (t_grid_inv _ _ _ _ _ _ _ _ _ _ K Hg) as (Hch & _). cbn in Hch. by injection Hch. }
      assert (C : current e sa r t1) by (eapply good_current; [apply HR0|apply HR0|exact HK|exact Hg]).
      destruct (g_disk g); [|done]. eapply current_keeps; [apply sr_reload_keeps|intros; by apply reload_plain|apply reload_run|intros C0; by apply reload_slopes, C0|done].
  Qed.
  (** Gridding returns normally. *)
  Lemma sess_returns g a dask sa r : origins sr_ops g -> tiles_known dask g -> sess_tiles g -> g_is_empty g = false -> mismatch g a = false ->
    is_power_of_two (metres e r) = true -> plain_args sa r a -> exn_of (g_grid sr_ops e g a dask) = None.
  Proof using.
    intros Ho Hcn HS Hem HM Hp [Ha Hr].
    apply (grid_total sr_ops e tile_keeps tile_keeps_refl tile_keeps_trans (sr_grid_keeps e) sr_reload_keeps t_strip_keeps g a dask (Some r));
      [done|done|done|done|unfold call_rez; by rewrite Hr|].
    intros k t Ht. unfold entry_result, entry_at. cbn [en_k en_t en_run Nat.add]. destruct (skip_tile _ _ _ t); [by eexists|].
    assert (Hb : borders sr_ops g a dask (Some r) k t = Ok None).
    { unfold borders, border_for. rewrite bool_decide_eq_false_2; [done|]. rewrite Ha. by destruct sa. }
    rewrite Hb. cbn [rbind]. destruct (HS k t Ht) as (x & y & ct' & HR & Hne').
    destruct (sess_has_data _ _ _ _ _ HR Hne') as [d Hd].
    assert (HK : next_clear sr_ops a (ga_clear a) = true \/ same_kind (t_algorithm t) (ga_alg a)).
    { eapply sess_kind; [exact HR|]. intros Hc. apply (mismatch_clear g a HM). unfold next_clear in Hc. by destruct (_ && _). }
    rewrite Ha in HK. assert (K : known_alg (alg_name sa)) by apply known_elem, alg_name_elem. destruct HR as (_ & HT & _).
    assert (HC : next_clear sr_ops a (ga_clear a) = true \/ compat e t (alg_name sa)).
    { destruct HK; [by left|right]. apply compat_kind; [apply HT|done|done]. }
    destruct (t_grid_ok e t (alg_name sa) (Some r) r (next_clear sr_ops a (ga_clear a)) (grid_auto a) (ga_params a) None d (td_good _ _ HT) eq_refl Hp K Hd HC) as (t' & l' & Hg & _).
    { by destruct sa. }
    cbn [sr_ops op_grid call_args ga_alg ga_rez ga_clear ga_mode ga_params ga_border].
    rewrite Ha, (tile_rez_given sr_ops (g_meta g) a r Hr), Hg. cbn. by eexists.
  Qed.
End rep.
Lemma allowed_again {T} (g : grid T) a alg : ga_alg a = alg -> ga_clear a = true \/ m_algorithm (g_meta g) ∈ [""; alg] -> mismatch g a = false.
Proof.
  intros Ha Hm. unfold mismatch. destruct (ga_clear a) eqn:Hc; [by rewrite andb_false_r|]. rewrite andb_true_r. destruct Hm as [|Hm]; [done|]. rewrite Ha.
  apply andb_false_iff. rewrite !negb_false_iff, !bool_decide_eq_true. apply elem_of_cons in Hm as [->|Hm%elem_of_list_singleton]; auto.
Qed.

(** ** The loaded grid *)
Lemma load_shape {T} (load_one : fs -> res (option T)) f g ge : load_grid load_one f = Ok g -> g_geom g = Some ge ->
  exists ts, g_tiles g = Some (Nd (nrows (gx ge)) (ncols (gx ge)) ts) /\ length ts = length (zip (nflat (gx ge)) (nflat (gy ge))).
Proof.
  unfold load_grid. destruct (negb _); [done|]. destruct (fs_read f [FMeta]) as [[]|]; try done.
  intros (a1 & _ & H)%rbind_Ok Hg. apply rbind_Ok in H as (a2 & _ & H). apply rbind_Ok in H as (a3 & _ & H). apply rbind_Ok in H as (a4 & _ & H).
  apply rbind_Ok in H as (a5 & _ & H). apply rbind_Ok in H as (ts & Ht & H). injection H as <-. cbn in Hg. injection Hg as <-. cbn.
  exists ts. split; [done|]. apply rmap_Ok in Ht. symmetry. by eapply Forall2_length.
Qed.
Lemma same_tiles_rel {T} (R : T -> T -> Prop) (g g' : grid T) (a : nd (option T)) (ts : list (option T)) lx ly s nx ny : 0 < s -> (0 < nx)%nat -> (0 < ny)%nat ->
  g_geom g = Some (std_geom lx ly s nx ny) -> g_geom g' = g_geom g -> g_tiles g = Some a -> nrows a = ny -> ncols a = nx -> length (nflat a) = (ny * nx)%nat ->
  g_tiles g' = Some (Nd ny nx ts) -> length ts = (ny * nx)%nat -> same_tiles R g g' -> tiles_rel R (g_tiles g) (g_tiles g').
Proof.
  intros Hs Hx Hy Hg Hg' Ha Hr Hc Hl Ha' Hl' [S1 S2]. rewrite Ha, Ha'. cbn. split; [done|]. split; [done|].
  assert (HD : distinct g) by (by eapply std_distinct). assert (HD' : distinct g') by (eapply std_distinct; [exact Hs|by rewrite Hg']).
  assert (Hor : forall k, origin_at g' k = origin_at g k) by (intros k; unfold origin_at; by rewrite Hg').
  apply Forall2_same_length_lookup. split; [congruence|]. intros k o o' Ho Ho'.
  assert (Hk : (k < ny * nx)%nat) by (rewrite <- Hl; by eapply lookup_lt_Some).
  pose proof (std_origin (new_sr_meta 0 0 s false false) lx ly nx ny k g Hg Hk) as Hok. set (xy := (_, _)) in Hok. destruct xy as [x y].
  assert (Ht : tile_at g k = o) by (unfold tile_at; by rewrite Ha, Ho). assert (Ht' : tile_at g' k = o') by (unfold tile_at; rewrite Ha'; cbn; by rewrite Ho').
  destruct o as [t|].
  - destruct (S1 x y t) as (t' & (j & J1 & J2) & HR); [exists k; split; [exact Hok|exact Ht]|]. rewrite Hor in J1. rewrite (HD j k (x, y) J1 Hok), Ht' in J2. rewrite J2. exact HR.
  - destruct o' as [t'|]; [|done]. destruct (S2 x y t') as (t & (j & J1 & J2)); [exists k; split; [by rewrite Hor|done]|]. rewrite (HD j k (x, y) J1 Hok), Ht in J2. done.
Qed.
(** Saving to a folder with any content and loading it. *)
Lemma saved_loads g F lx ly s nx ny a : 0 < s -> (0 < nx)%nat -> (0 < ny)%nat -> g_geom g = Some (std_geom lx ly s nx ny) ->
  g_tiles g = Some a -> nrows a = ny -> ncols a = nx -> length (nflat a) = (ny * nx)%nat ->
  (forall k t, tile_at g k = Some t -> plain_tile t) -> (is_Some (m_ext (g_meta g)) /\ is_Some (m_width (g_meta g)) /\ is_Some (m_height (g_meta g))) ->
  exists g', load_sr (fs_run F (ev_of (save_sr_to g))) = Ok g' /\ same_tiles same_tile g g' /\ g_geom g' = g_geom g /\ g_meta g' = g_meta g /\ g_disk g' = true /\
    g_mask g' = Some (default (Nd 0 0 []) (g_mask g)) /\ tiles_rel reloaded (g_tiles g) (g_tiles g').
Proof.
  intros Hs Hx Hy Hg Ha Hr Hc Hl HP (E1 & E2 & E3). unfold save_sr_to. cbn [ev_of]. set (g1 := g <| g_disk := true |>). rewrite run_app.
  set (f1 := fs_run F (save_grid g1)). assert (A1 : arrays_stored g1 (g_meta g1) f1) by (by apply save_grid_stored).
  assert (HD : distinct g1) by (by eapply (std_distinct g1)).
  assert (Hsz : tiles_size g1 = (ny * nx)%nat) by (unfold tiles_size; cbn; by rewrite Ha).
  destruct (load_grid_rel load_sr_tile reloaded g1 (fs_run f1 (save_tiles g1 (fun t => save_tile t SaveAll))) (g_meta g1) _ Hg (save_tiles_arrays _ _ _ _ A1))
    as (g' & L1 & L2 & L3 & L4 & L5 & L6).
  { intros k x y Ho. pose proof (std_origin_bound (new_sr_meta 0 0 s false false) lx ly nx ny k (x, y) g1 Hg Ho) as Hk.
    rewrite (save_tiles_sub g1 _ f1 k x y); [|done|done|by rewrite Hsz].
    destruct (tile_at g1 k) as [t|] eqn:Et.
    - destruct (load_reloaded (fs_run (fsub f1 (loc x y)) (save_tile (Some t) SaveAll)) t) as (t' & H1 & H2).
      { apply saved_stored; [by apply (HP k)|]. split; intros H; discriminate H. }
      exists (Some t'). done.
    - exists None. split; [|done]. apply load_no_folder. change (save_tile None SaveAll) with (save_tile None SavePoints). by rewrite rm_all. }
  exists g'. split; [exact L1|]. split; [|split; [done|split; [rewrite L3; by apply loaded_meta_id|split; [done|split; [done|]]]]].
  - destruct L6 as [S1 S2]. split; [|done]. intros x y t Ht. destruct (S1 x y t Ht) as (t' & H1 & H2 & _). by exists t'.
  - destruct (load_shape _ _ _ _ L1 (eq_trans L2 Hg)) as (ts & T1 & T2). cbn [std_geom gx gy meshgrid_x meshgrid_y nrows ncols] in T1. rewrite !uniform_length in T1.
    change (g_tiles g) with (g_tiles g1).
    apply (same_tiles_rel reloaded g1 g' a ts lx ly s nx ny); try done.
    rewrite T2, zip_with_length, std_geom_len. pose proof (meshgrid_y_wf (uniform lx s nx) (uniform ly s ny)) as HL. unfold nd_wf in HL.
    change (nflat (gy (std_geom lx ly s nx ny))) with (nflat (meshgrid_y (uniform lx s nx) (uniform ly s ny))). rewrite HL. cbn [meshgrid_y nrows ncols]. rewrite !uniform_length. lia.
Qed.

Lemma root_unmasked {T} (m0 : gmeta) (rep : T -> Z -> Z -> content -> Prop) g ct seen ok mk dk :
  root_inv m0 rep g ct seen ok -> root_inv m0 rep (g <| g_mask := mk |> <| g_disk := dk |>) ct seen false.
Proof.
  intros [[B1 B2 B3 B4] Hst]. split; [by split|]. destruct Hst as [(H1 & H2 & H3 & H4 & _)|(Hne & lx & ly & nx & ny & a & [P1 P2 P3 P4 P5 P6 P7 P8] & F & N & S1 & S2 & _)].
  - left. by split.
  - right. split; [done|]. exists lx, ly, nx, ny, a. split; [by split|]. done.
Qed.

Section sr.
  Context (e : env) (Q : option (simple_algorithm * Z)) (P : gargs -> Prop) (size : Z) (b zarr : bool) (Hsize : 0 < size) (HP : forall a, P a -> asked Q a).
  Notation m0 := (new_sr_meta 0 0 size b zarr).
  Notation rep := (sess_rep e Q size b).
  Definition sess_inv (g : sr_grid) (ct : content) : Prop := exists seen ok, root_inv m0 (rep (m_algorithm (g_meta g))) g ct seen ok.
  Lemma sess_tile_plain g ct k t : sess_inv g ct -> tile_at g k = Some t -> plain_tile t.
  Proof using.
    intros (seen & ok & HI) Ht. destruct (root_rep m0 _ _ _ _ _ _ _ HI Ht) as (x & y & ct' & ((_ & HR & _) & H2 & _) & Hne).
    apply (tidy_plain e); [done|]. destruct (t_data t) as [d|] eqn:E; [done|]. exfalso. apply Hne. by apply (tr_none _ _ HR).
  Qed.
  Lemma sess_save g ct F : sess_inv g ct -> ct <> [] ->
    exn_of (save_sr_to g) = None /\
    exists g', load_sr (fs_run F (ev_of (save_sr_to g))) = Ok g' /\ same_tiles same_tile g g' /\ g_geom g' = g_geom g /\ g_meta g' = g_meta g /\ g_disk g' = true /\ sess_inv g' ct.
  Proof using Hsize.
    intros HS Hne. pose proof HS as (seen & ok & HI). pose proof HI as [_ [(_ & E & _)|(_ & lx & ly & nx & ny & a & [P1 P2 P3 P4 P5 P6 P7 P8] & (_ & _ & F3 & F4 & F5) & _)]]; [done|].
    split; [cbn; unfold save_exn; by rewrite P4|].
    destruct (saved_loads g F lx ly size nx ny a Hsize P1 P2 P3 P4 P5 P6) as (g' & L1 & L2 & L3 & L4 & L5 & L6 & L7).
    { by destruct P7. }
    { intros k t Ht. by eapply sess_tile_plain. }
    { rewrite F3, F4, F5. eauto. }
    exists g'. do 5 (split; [done|]). exists seen, false. rewrite L4.
    eapply (root_evolve m0 (rep (m_algorithm (g_meta g))) (rep (m_algorithm (g_meta g))) reloaded); [intros t t' x y c0 HR; by apply sess_load| |].
    2: exact (root_unmasked _ _ _ _ _ _ (g_mask g') true HI).
    split; try done. cbn. rewrite L4. apply core_meta_refl.
  Qed.
  Lemma sess_add g ct d a : sess_inv g ct -> exn_of (g_add_points sr_ops g (GoodData d) a) = None ->
    sess_inv (st_of (g_add_points sr_ops g (GoodData d) a)) (ct ++ [(a_container a, d)]).
  Proof using Hsize.
    intros (seen & ok & HI) Hx. unfold sess_inv. pose proof (add_attrs sr_ops g (GoodData d) a) as [A1 A2]. injection A1 as _ A1 _ _. rewrite A1.
    destruct (root_add sr_ops m0 _ (sess_laws e Q size b Hsize m0 _ eq_refl eq_refl) Hsize eq_refl eq_refl eq_refl g ct seen ok (GoodData d) a HI) as [(H1 & _)|(d' & m1 & [= <-] & _ & _ & _ & _ & H2 & _)]; [done|]. eauto.
  Qed.
  Lemma sess_remove g ct c : sess_inv g ct -> exn_of (g_remove_points sr_ops g c) = None -> sess_inv (st_of (g_remove_points sr_ops g c)) (drop_c ct c).
  Proof using Hsize.
    intros (seen & ok & HI) Hx. unfold sess_inv. pose proof (remove_attrs sr_ops g c) as [A1 A2]. injection A1 as _ A1 _ _. rewrite A1.
    destruct (root_remove sr_ops m0 _ (sess_laws e Q size b Hsize m0 _ eq_refl eq_refl) Hsize g ct seen ok c HI) as [_ H2]. destruct (H2 Hx) as [H3 _]. eauto.
  Qed.
  Lemma sess_grid g ct a dask : sess_inv g ct -> asked Q a -> exn_of (g_grid sr_ops e g a dask) = None -> sess_inv (st_of (g_grid sr_ops e g a dask)) ct.
  Proof using Hsize.
    intros (seen & ok & HI) Ha Hx. unfold sess_inv.
    destruct (sess_evolve e Q size b Hsize g a dask (root_origins _ _ _ _ _ _ _ HI) Hx Ha) as [E ->].
    exists seen, ok. eapply root_evolve; [|exact E|exact HI]. intros t t' x y c0 Hc Hr. by apply Hc.
  Qed.
  Lemma sessions_inv g ct : sr_sessions e P size b zarr g ct -> sess_inv g ct.
  Proof using Hsize HP.
    induction 1 as [dk|g ct d a H IH Hx|g ct inp a H IH Hx|g ct c H IH Hx|g ct a dask' H IH Ha Hx|g ct H IH Hx|g ct F g' H IH Hx HL].
    - exists [], true. by apply root_new.
    - by apply sess_add.
    - destruct IH as (seen & ok & IH). unfold sess_inv. pose proof (add_attrs sr_ops g inp a) as [A1 A2]. injection A1 as _ A1 _ _. rewrite A1.
      destruct (root_add sr_ops m0 _ (sess_laws e Q size b Hsize m0 _ eq_refl eq_refl) Hsize eq_refl eq_refl eq_refl g ct seen ok inp a IH) as [(H1 & H2 & _)|(d' & m1 & _ & _ & _ & _ & H1 & _)]; [eauto|done].
    - by apply sess_remove.
    - apply sess_grid; [done|by apply HP|done].
    - destruct IH as (seen & ok & IH). exists seen, false. change (m_algorithm (g_meta (st_of (save_sr_to g)))) with (m_algorithm (g_meta g)).
      assert (E : st_of (save_sr_to g) = g <| g_mask := g_mask g |> <| g_disk := true |>) by (by destruct g). rewrite E. by eapply root_unmasked.
    - destruct (decide (ct = [])) as [->|Hne].
      + exfalso. destruct IH as (seen & ok & [_ [(H1 & _)|(? & _)]]); [|done]. cbn in Hx. unfold save_exn in Hx. by rewrite H1 in Hx.
      + destruct (sess_save g ct F IH Hne) as (_ & g2 & L1 & _ & _ & _ & _ & L2). rewrite L1 in HL. by injection HL as <-.
  Qed.
  (** After gridding with one of the simple algorithms at one resolution: in full mode any grid, in update mode
      one that was only gridded so before. *)
  Lemma sess_reflects g ct sa r a dask : sess_inv g ct -> ct <> [] -> asked Q a -> plain_args sa r a ->
    (Q = Some (sa, r) \/ ga_regrid a <> "update" \/ ga_clear a = true) -> exn_of (g_grid sr_ops e g a dask) = None ->
    let g' := st_of (g_grid sr_ops e g a dask) in
    sr_reflects e (alg_name sa) r size b ct g' /\ exists lx ly nx ny, frame g' size ct lx ly nx ny.
  Proof using Hsize.
    intros (seen & ok & HI) Hne HA HPl HQ Hx g'.
    pose proof (root_origins sr_ops _ _ _ _ _ _ HI) as Ho.
    destruct (sess_evolve e Q size b Hsize g a dask Ho Hx HA) as [E Em].
    assert (HI' : root_inv m0 (rep (ga_alg a)) g' ct seen ok) by (eapply root_evolve; [|exact E|exact HI]; intros t t' x y c0 Hc Hr; by apply Hc).
    split; [|exact (root_frame m0 _ _ _ _ _ Hsize HI' Hne)].
    intros k x y Hk here. pose proof (root_loc _ _ _ _ _ _ _ _ _ HI' Hk) as HL. cbn [m_tile_size new_sr_meta new_meta] in HL.
    assert (El : all_points (content_in x y size ct) = here) by apply content_in_points.
    destruct (tile_at g' k) as [t|] eqn:Ht; cbn in HL; [|by rewrite <- El, HL].
    destruct HL as (Hn2 & HR). pose proof HR as ((HQ0 & HT & HIn) & _). rewrite (rep_data _ _ HT Hn2), El. split; [done|]. split.
    { subst here. by apply content_in_points_ne. }
    rewrite <- El. apply current_reflects; [done|by split|].
    eapply (sess_current e Q size b Hsize g a dask sa r); try done. intros j t0 Hj. exact (root_rep m0 _ _ _ _ _ _ _ HI Hj).
  Qed.
End sr.

(** Gridding returns normally. *)
Lemma sess_total e Q size b zarr sa r g ct a dask : 0 < size -> sess_inv e Q size b zarr g ct -> ct <> [] ->
  is_power_of_two (metres e r) = true -> plain_args sa r a -> (ga_clear a = true \/ m_algorithm (g_meta g) ∈ [""; alg_name sa]) ->
  exn_of (g_grid sr_ops e g a dask) = None.
Proof.
  intros Hs (seen & ok & HI) Hne Hp [Ha Hr] Hm.
  apply (sess_returns e Q size b g a dask sa r); [exact (root_origins sr_ops _ _ _ _ _ _ HI)|by eapply root_tiles_known|intros k t Hk; exact (root_rep _ _ _ _ _ _ _ _ HI Hk)| |by eapply allowed_again|done|by split].
  rewrite (root_is_empty (new_sr_meta 0 0 size b zarr) _ Hs _ _ _ _ HI). by apply bool_decide_eq_false_2.
Qed.

(** The points of the tiles. *)
Lemma sess_location e Q size b zarr g ct k x y : sess_inv e Q size b zarr g ct ->
  origin_at g k = Some (x, y) ->
  let l := filter (fun p => in_square x y size (px p) (py p)) (all_points ct) in
  match tile_at g k with Some t => t_data t = Some l /\ l <> [] | None => l = [] end.
Proof.
  intros (seen & ok & HI) Ho l.
  pose proof (root_loc _ _ _ _ _ _ _ _ _ HI Ho) as HL. cbn [m_tile_size new_sr_meta new_meta] in HL.
  destruct (tile_at g k) as [t|]; cbn in HL.
  - destruct HL as (Hne & (_ & Hr & _) & _). split; [|by apply content_in_points_ne].
    rewrite (rep_data _ _ Hr Hne). by rewrite content_in_points.
  - subst l. rewrite <- content_in_points, HL. done.
Qed.
