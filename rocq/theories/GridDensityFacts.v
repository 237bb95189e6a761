(** Sounding counts over the tiles of a grid, border points, and whether a grid is gridded. *)
From Coq Require Import Lqa.
From Verif Require Import Py Nd Numpy Point Bin Algorithms Tile Time Meta Disk Grid GridRun GridQuery GridOps Spec TileExec GridExec.
From Verif Require Import PyFacts NdFacts NumpyFacts AlgFacts BinFacts TileFacts TileGridFacts TileSpecFacts TileRunFacts TileHistFacts TilePropFacts TileQueryFacts.
From Verif Require Import GridBaseFacts GridPlaceFacts GridInvFacts GridRootFacts GridEvolveFacts GridSrFacts GridPropFacts GridHistFacts GridRunFacts GridCleanFacts GridUpdateFacts.
Open Scope Z_scope.

(** ** The density layer of a gridded tile *)
Lemma grid_density q e x y s b t alg ro clear mode gp border t' r :
  0 < s -> tile_reach q e x y s b t -> alg ∈ ["mean"; "shoalest"; "cube"] -> (clear = true \/ same_kind (t_algorithm t) alg) ->
  t_grid e t alg ro clear mode gp border = Ok (t', r) ->
  0 < r /\ layer_of t' r "density" = Some (density_spec t' r (pts t')) /\
  exists l, t_cells t' = dset (if clear then [] else t_cells (clear_temp_data t r)) r l.
Proof.
  intros Hs HR HA HC Hg.
  destruct (reach_grid _ _ _ _ _ _ _ _ _ _ _ _ _ _ _ Hs HR HA HC Hg) as (HG & HQ & Hr & HA' & Hcr & _ & l & HT).
  split; [done|]. split; [|exists l; exact (gt_cells _ _ _ _ _ _ _ _ _ HT)].
  destruct (t_grid_keeps _ _ _ _ _ _ _ _ _ _ Hg) as (F & D & _).
  assert (Hp : pts t' = pts t) by (unfold pts; by rewrite D). rewrite Hp, (density_spec_frame _ _ _ _ F).
  unfold layer_of. rewrite (gridded_get _ _ _ _ _ _ _ _ _ HT).
  destruct (alg_keys_depth e (t_depth_key t) _ HA') as [_ K2]. destruct (depth_key_ne t) as (N1 & _).
  rewrite (gt_std _ _ _ _ _ _ _ _ _ HT _ K2). clear HA HC Hg HT K2.
  assert (Hsimple : forall a, std_layer e t (alg_name a) r gp border (pts t) "density" = Some (density_spec t r (pts t))).
  { intros a. destruct (fresh_out_ok e t a r (pts t) (g_size _ _ HG) Hr (g_in _ _ HG)) as [o Ho].
    rewrite (simple_std _ _ _ _ _ _ _ _ _ Ho). unfold simple_layer. rewrite decide_False by done.
    rewrite decide_True by done. f_equal.
    by destruct (fresh_out_spec e t a r (pts t) o (g_size _ _ HG) Hr (g_in _ _ HG) Ho) as (_ & ? & _ & _). }
  destruct HA' as [->|[->| ->]]; [apply (Hsimple Mean)|apply (Hsimple Shoalest)|].
  destruct (cube_fresh_ok e t r gp border (pts t) (g_size _ _ HG) Hr (g_in _ _ HG)) as (qq & Hq & Hd & _); [by apply Hcr|].
  rewrite (cube_std _ _ _ _ _ _ _ _ Hq). unfold cube_layer.
  rewrite decide_False by done. rewrite decide_False by done. rewrite decide_False by done.
  rewrite decide_True by done. by rewrite Hd.
Qed.

(** The tile holds one resolution only, with the counts of its points. *)
Definition counted (r : Z) (t : tile) : Prop :=
  0 < r /\ exists l, t_cells t = [(r, l)] /\ dget l "density" = Some (density_spec t r (pts t)).
Lemma counted_intro r t : 0 < r -> dkeys (t_cells t) = [r] -> layer_of t r "density" = Some (density_spec t r (pts t)) -> counted r t.
Proof.
  intros Hr Hk HL. split; [done|]. destruct (t_cells t) as [|[r0 l] [|]] eqn:E; try done. cbn in Hk. injection Hk as ->.
  exists l. split; [done|]. unfold layer_of in HL. rewrite E in HL. cbn in HL. by rewrite decide_True in HL by done.
Qed.

Lemma clear_temp_cells_keys cells rs : dkeys (clear_temp_cells cells rs) = dkeys cells.
Proof.
  unfold clear_temp_cells. revert cells. induction rs as [|r rs IH]; intros cells; [done|]. cbn [foldl]. rewrite IH. apply dkeys_dmapkv.
Qed.
Lemma set_layers_keys t r l : is_Some (dget (t_cells t) r) -> dkeys (t_cells (set_layers t r l)) = dkeys (t_cells t).
Proof.
  intros H%dget_is_Some. change (t_cells (set_layers t r l)) with (dset (t_cells t) r l). rewrite dkeys_dset. by rewrite decide_True.
Qed.
Lemma remove_keys t c : dkeys (t_cells (t_remove_points t c)) = dkeys (t_cells t).
Proof.
  unfold t_remove_points. destruct (dget _ _) as [[]|]; [|done]. destruct (t_data t); [|done]. cbv zeta.
  rewrite clear_temp_all_eq. cbn. apply clear_temp_cells_keys.
Qed.
Lemma add_keys t d c : dkeys (t_cells (t_add_points t d c)) = dkeys (t_cells t).
Proof.
  unfold t_add_points. destruct (t_data t); [|done]. cbv zeta. rewrite clear_temp_all_eq. etransitivity; [apply clear_temp_cells_keys|].
  destruct (dmem _ _); [apply remove_keys|done].
Qed.
Lemma query_keys e t layer ro nodata up t' o : t_get_layers_by_name e t layer ro nodata up = Ok (t', o) -> dkeys (t_cells t') = dkeys (t_cells t).
Proof.
  unfold t_get_layers_by_name. destruct (t_is_empty t); [by intros [= <- _]|]. intros (mr & Hmr & H)%rbind_Ok.
  destruct mr as [r0|]; [|by injection H as <- _]. apply rbind_Ok in H as (t1 & H1 & H).
  apply rbind_Ok in H as (a & _ & H). injection H as <- _.
  assert (Hr : is_Some (dget (t_cells t) r0)).
  { destruct ro as [r'|].
    - destruct (dmem (t_cells t) r') eqn:E; rewrite ?E in Hmr; [|done]. injection Hmr as ->. by apply dget_is_Some, dmem_true.
    - apply dget_is_Some. destruct (dkeys (t_cells t)) as [|r1 [|]]; try done. injection Hmr as ->. left. }
  assert (Hset : forall l, dkeys (t_cells (set_layers t r0 l)) = dkeys (t_cells t)) by (intros; by apply set_layers_keys).
  unfold prepare_query in H1. case_bool_decide as Hsl.
  { unfold run_slopes in H1. destruct (dmem _ _); [by injection H1 as <-|].
    apply rbind_Ok in H1 as (? & _ & H1). apply rbind_Ok in H1 as (? & _ & H1). apply rbind_Ok in H1 as (? & _ & H1).
    apply rbind_Ok in H1 as (? & _ & H1). apply rbind_Ok in H1 as (? & _ & H1). injection H1 as <-. apply Hset. }
  destruct (is_container_query layer); [|by injection H1 as <-].
  destruct (dmem (t_container t) layer).
  - assert (HC : forall a, run_simple_container a t r0 layer = Ok t1 -> dkeys (t_cells t1) = dkeys (t_cells t)).
    { intros a0. unfold run_simple_container. destruct (t_data t) eqn:E; [|done].
      intros (? & _ & H)%rbind_Ok. apply rbind_Ok in H as (? & _ & H). apply rbind_Ok in H as (? & _ & H).
      apply rbind_Ok in H as (? & _ & H). injection H as <-. apply Hset. }
    repeat case_bool_decide; [by eapply HC..|by destruct (e_cube_enabled e)|by injection H1 as <-].
  - apply rbind_Ok in H1 as (? & _ & H1). injection H1 as <-. apply Hset.
Qed.
Lemma reload_keys m t : dkeys (t_cells (t_reload m t)) = dkeys (t_cells t).
Proof. unfold t_reload. destruct (saves_grid m); [|done]. apply (dkeys_dmapv stored_part). Qed.

Definition at_rez (r : Z) : string -> Z -> Prop := fun _ r' => r' = r.
Lemma steps_keys e r x y s b t ct f : 0 < s -> tile_steps e (at_rez r) x y s b t ct f ->
  dkeys (t_cells t) = [] \/ dkeys (t_cells t) = [r].
Proof.
  intros Hs. induction 1 as [|t ct f d c H IH Hd|t ct f c H IH|t ct f alg ro clear mode gp border t' r' H IH HA -> HC Hg|
    t ct f layer ro nodata up t' o H IH Hq|t ct f m H IH].
  - by left.
  - by rewrite add_keys.
  - by rewrite remove_keys.
  - right. destruct (grid_density _ _ _ _ _ _ _ _ _ _ _ _ _ _ _ Hs (steps_reach _ _ _ _ _ _ _ _ _ H) HA HC Hg) as (_ & _ & l & ->).
    rewrite dkeys_dset. destruct clear; [done|].
    assert (E : dkeys (t_cells (clear_temp_data t r)) = dkeys (t_cells t)) by apply dkeys_dmapkv. rewrite E.
    destruct IH as [-> | ->]; [done|]. rewrite decide_True; [done|left].
  - by rewrite (query_keys _ _ _ _ _ _ _ _ Hq).
  - by rewrite reload_keys.
Qed.
Lemma plain_density : "density" ∈ plain_names. Proof. apply (bool_decide_unpack _); vm_compute; exact I. Qed.
Lemma counted_density t t' r : tile_keeps t t' -> layer_of t' r "density" = layer_of t r "density" ->
  layer_of t r "density" = Some (density_spec t r (pts t)) -> layer_of t' r "density" = Some (density_spec t' r (pts t')).
Proof.
  intros (F & D & _) HL H. rewrite HL, H. assert (Hp : pts t' = pts t) by (unfold pts; by rewrite D).
  by rewrite Hp, (density_spec_frame _ _ _ _ F).
Qed.
Lemma steps_counted e r x y s b t ct f : 0 < s -> tile_steps e (at_rez r) x y s b t ct f -> f = false -> ct <> [] -> counted r t.
Proof.
  intros Hs H Hf Hne. assert (HH : 0 < r /\ dkeys (t_cells t) <> [] /\ layer_of t r "density" = Some (density_spec t r (pts t))).
  2:{ destruct HH as (H1 & H2 & H3). destruct (steps_keys _ _ _ _ _ _ _ _ _ Hs H) as [E|E]; [done|]. by apply counted_intro. }
  revert Hf Hne. induction H as [|t ct f d c H IH Hd|t ct f c H IH|t ct f alg ro clear mode gp border t' r' H IH HA -> HC Hg|
    t ct f layer ro nodata up t' o H IH Hq|t ct f m H IH]; intros Hf Hne; try done.
  - apply orb_false_iff in Hf as [-> Hc]. apply bool_decide_eq_false in Hc.
    destruct (history_rep _ _ _ _ _ _ _ _ Hs (steps_history _ _ _ _ _ _ _ _ _ H)) as [HR _].
    rewrite (t_remove_absent t c ct HR Hc). rewrite drop_c_notin in Hne by done. by apply IH.
  - destruct (grid_density _ _ _ _ _ _ _ _ _ _ _ _ _ _ _ Hs (steps_reach _ _ _ _ _ _ _ _ _ H) HA HC Hg) as (H1 & H2 & l & H3).
    split; [done|]. split; [|done]. rewrite H3, dkeys_dset. destruct (decide _) as [E|E]; intros Hz.
    + rewrite Hz in E. by apply not_elem_of_nil in E.
    + by apply app_eq_nil in Hz as [_ Hz].
  - rewrite (query_keys _ _ _ _ _ _ _ _ Hq). destruct (IH Hf Hne) as (H1 & H2 & H3). split; [done|]. split; [done|].
    eapply counted_density; [by eapply t_query_keeps|eapply query_plain; [exact Hq|apply plain_density]|done].
  - rewrite reload_keys. destruct (IH Hf Hne) as (H1 & H2 & H3). split; [done|]. split; [done|].
    eapply counted_density; [apply sr_reload_keeps|apply reload_plain, plain_density|done].
Qed.

(** ** Sums of counts *)
Lemma sumQ_app l k : (sumQ (l ++ k) == sumQ l + sumQ k)%Q.
Proof.
  induction l as [|x l IH]; [change (sumQ []) with 0%Q; cbn [app]; ring|]. cbn [app].
  change (sumQ (x :: l ++ k)) with (x + sumQ (l ++ k))%Q. change (sumQ (x :: l)) with (x + sumQ l)%Q. rewrite IH. ring.
Qed.
Lemma sumQ_positive l : Forall (fun q => 0 <= q)%Q l -> (sumQ (filter (fun q => Qle_bool q 0 = false) l) == sumQ l)%Q.
Proof.
  induction 1 as [|q l Hq _ IH]; [done|]. rewrite filter_cons. destruct (decide _) as [E|E].
  { change (sumQ (q :: ?z)) with (q + sumQ z)%Q. by rewrite IH. }
  change (sumQ (q :: l)) with (q + sumQ l)%Q. rewrite IH.
  apply not_false_iff_true, Qle_bool_iff in E. assert (q == 0)%Q by (apply Qle_antisym; done). rewrite H. ring.
Qed.
Lemma values_nonneg n a f : layer_is n a (fun row col v => v = Some (numQ (f row col))) -> Forall (fun q => 0 <= q)%Q (values a).
Proof.
  intros (H1 & H2 & H3 & H4). apply Forall_forall. intros q Hq. unfold values in Hq. apply elem_of_list_omap in Hq as (v & Hv & E).
  apply elem_of_list_lookup in Hv as (i & Hi). assert (Hl : (i < n * n)%nat) by (rewrite <- H3; by eapply lookup_lt_Some).
  assert (Hn : (0 < n)%nat) by lia.
  destruct (H4 (i / n)%nat (i mod n)%nat) as (v' & Hg & ->); [apply Nat.div_lt_upper_bound; lia|apply Nat.mod_upper_bound; lia|].
  unfold nd_get in Hg. rewrite H1, H2 in Hg. rewrite !bool_decide_eq_true_2 in Hg.
  2:{ apply Nat.mod_upper_bound. lia. } 2:{ apply Nat.div_lt_upper_bound; lia. }
  cbn in Hg. replace (i / n * n + i mod n)%nat with i in Hg by (pose proof (Nat.div_mod i n); lia).
  rewrite Hi in Hg. injection Hg as ->. cbn in E. injection E as <-. unfold numQ. change 0%Q with (inject_Z 0). rewrite <- Zle_Qle. lia.
Qed.
Lemma counted_sum r t : 0 < t_size t -> Forall (in_tile t) (pts t) -> counted r t ->
  exists l, t_density_count t = Ok l /\ (sumQ l == numQ (length (pts t)))%Q.
Proof.
  intros Hs Hin (Hr & l & Hc & Hd). unfold t_density_count. rewrite Hc. unfold density_layer. cbn [rmap snd]. rewrite Hd. cbn [rofopt rbind].
  eexists. split; [done|]. cbn [concat]. rewrite app_nil_r. unfold positive_counts. rewrite sumQ_positive.
  - by apply density_spec_sum.
  - apply (values_nonneg (ncell t r) _ (fun row col => length (tile_cell t r row col (pts t)))). apply density_spec_layer.
Qed.

Lemma counts_sum (ts : list tile) : (forall t, t ∈ ts -> exists l, t_density_count t = Ok l /\ (sumQ l == numQ (t_points_count t))%Q) ->
  exists l, rmap t_density_count ts = Ok l /\ (sumQ (concat l) == numQ (list_sum (map t_points_count ts)))%Q.
Proof.
  induction ts as [|t ts IH]; intros H; [by exists []|]. destruct (H t) as (l & H1 & H2); [left|].
  destruct IH as (ls & H3 & H4); [intros u Hu; apply H; by right|]. exists (l :: ls). cbn [rmap]. rewrite H1. cbn [rbind]. rewrite H3. split; [done|].
  cbn [concat map list_sum fold_right]. rewrite sumQ_app, H2, H4. unfold numQ. rewrite <- inject_Z_plus. f_equiv. cbn. unfold list_sum. lia.
Qed.

(** ** After grid() *)
Lemma grid_counted q e x y s b t alg ro clear mode gp border t' r :
  0 < s -> tile_reach q e x y s b t -> alg ∈ ["mean"; "shoalest"; "cube"] -> (clear = true \/ same_kind (t_algorithm t) alg) ->
  t_grid e t alg ro clear mode gp border = Ok (t', r) ->
  (clear = true \/ dkeys (t_cells t) = [] \/ dkeys (t_cells t) = [r]) -> counted r t'.
Proof.
  intros Hs HR HA HC Hg Hk. destruct (grid_density _ _ _ _ _ _ _ _ _ _ _ _ _ _ _ Hs HR HA HC Hg) as (H1 & H2 & l & H3).
  apply counted_intro; [done| |done]. rewrite H3, dkeys_dset. destruct clear; [done|].
  assert (E : dkeys (t_cells (clear_temp_data t r)) = dkeys (t_cells t)) by apply dkeys_dmapkv. rewrite E.
  destruct Hk as [?|[-> | ->]]; [done|done|]. rewrite decide_True; [done|left].
Qed.
Lemma counted_keeps r t t' : tile_keeps t t' -> dkeys (t_cells t') = dkeys (t_cells t) ->
  layer_of t' r "density" = layer_of t r "density" -> counted r t -> counted r t'.
Proof.
  intros K Hk HL (H1 & l & H2 & H3). apply counted_intro; [done|rewrite Hk, H2; done|]. eapply counted_density; [done|done|].
  unfold layer_of. rewrite H2. cbn. by rewrite decide_True.
Qed.

Section counts.
  Context (e : env) (Q : string -> Z -> Prop) (size : Z) (b : bool) (Hsize : 0 < size).
  Lemma sr_all_counted g a dask r : origins sr_ops g -> all_steps e Q size b g -> known_args a -> ga_rez a = Some r ->
    exn_of (g_grid sr_ops e g a dask) = None -> (ga_clear a = true \/ forall alg r', Q alg r' -> r' = r) ->
    forall k t', tile_at (st_of (g_grid sr_ops e g a dask)) k = Some t' -> counted r t'.
  Proof using Hsize.
    intros Ho HS HA Hr Hx HQ k t' Ht'. pose proof (sr_finished e g a dask Ho Hx) as D.
    destruct (tile_at g k) as [t|] eqn:Ht; [|by rewrite (gd_none _ _ _ _ _ _ D k Ht) in Ht'].
    destruct (sr_done_tile e g a dask Ho Hx) as (rez & Hrez & HT). destruct (HT k t Ht) as (t2 & Ht2 & H).
    rewrite Ht2 in Ht'. injection Ht' as ->. cbv zeta in H. destruct (HS k t Ht) as (x & y & ct & HR & Hne).
    pose proof HR as (_ & (f & Hst) & _).
    assert (Hmono : (forall alg r', Q alg r' -> r' = r) -> tile_steps e (at_rez r) x y size b t ct f).
    { intros HQ'. clear -Hst HQ'. induction Hst; [apply TS_new|by eapply TS_add|by apply TS_remove| |by eapply TS_query|by apply TS_reload].
      eapply TS_grid; [done|done|by eapply HQ'|done|done]. }
    destruct (skip_tile _ _ _ t) eqn:Hs.
    - destruct H as [-> _]. unfold skip_tile in Hs. apply andb_true_iff in Hs as [Hs H3]. apply andb_true_iff in Hs as [_ H2].
      apply negb_true_iff in H2, H3. unfold clear_at in H2. apply orb_false_iff in H2 as [H2 _]. destruct HQ as [HQ|HQ]; [congruence|].
      eapply steps_counted; [exact Hsize|by apply Hmono| |done].
      destruct (history_rep _ _ _ _ _ _ _ _ Hsize (steps_history _ _ _ _ _ _ _ _ _ Hst)) as [_ <-]. done.
    - destruct H as (bd & t1 & r1 & Hb & _ & Hg & ->). unfold call_rez in Hrez. rewrite Hr in Hrez. injection Hrez as <-.
      rewrite (tile_rez_given _ _ _ _ Hr) in Hg.
      assert (r1 = r) as ->. { destruct (t_grid_inv _ _ _ _ _ _ _ _ _ _ (proj1 (known_elem _) HA) Hg) as (Hch & _). cbn in Hch. by injection Hch as <-. }
      assert (HC : counted r t1).
      { eapply grid_counted; [exact Hsize|by eapply steps_reach|exact HA| |exact Hg|].
        - eapply steps_kind; [exact HR|]. intros Hc. apply mismatch_clear; [exact (gd_match _ _ _ _ _ _ D)|].
          unfold next_clear in Hc. by destruct (_ && _).
        - destruct HQ as [HQ|HQ]; [left; unfold next_clear; rewrite HQ; by destruct (_ && _)|]. right. eapply steps_keys; [exact Hsize|by apply Hmono]. }
      destruct (g_disk g); [|done]. eapply counted_keeps; [apply sr_reload_keeps|apply reload_keys|apply reload_plain, plain_density|done].
  Qed.
End counts.

Definition at_args (r : Z) (a : gargs) : Prop := known_args a /\ ga_rez a = Some r.
Lemma sr_density_sum e (P : gargs -> Prop) size b zarr disk g ct a dask r :
  0 < size -> (forall a, P a -> known_args a) -> sr_clean e P size b zarr disk g ct -> known_args a -> ga_rez a = Some r ->
  exn_of (g_grid sr_ops e g a dask) = None -> (ga_clear a = true \/ forall a, P a -> ga_rez a = Some r) ->
  let g' := st_of (g_grid sr_ops e g a dask) in
  exists l, g_density_count sr_ops g' = Ok l /\ (sumQ l == numQ (length (all_points ct)))%Q /\
    g_points_count sr_ops g' = length (all_points ct).
Proof.
  intros Hs HP H HA Hr Hx Hc g'. unfold g_density_count. cbn [sr_ops op_density_count].
  assert (HC : forall k t', tile_at g' k = Some t' -> counted r t').
  { destruct Hc as [Hc|Hc].
    - destruct (sr_clean_inv e (fun _ _ => True) P size b zarr disk Hs (fun a Pa => known_allows a (HP a Pa)) g ct H) as (_ & seen & ok & HI).
      eapply (sr_all_counted e (fun _ _ => True) size b Hs); try done; [by eapply root_origins|intros k t Ht; by eapply root_rep|by left].
    - assert (HQ : forall a, P a -> allows (at_rez r) a).
      { intros a0 Pa. split; [by apply HP|]. by rewrite (Hc a0 Pa). }
      destruct (sr_clean_inv e (at_rez r) P size b zarr disk Hs HQ g ct H) as (_ & seen & ok & HI).
      eapply (sr_all_counted e (at_rez r) size b Hs); try done; [by eapply root_origins|intros k t Ht; by eapply root_rep|by right]. }
  assert (H' : sr_clean e known_args size b zarr disk g' ct) by (apply CH_grid; [by eapply clean_mono|done|done]).
  destruct (sr_clean_inv e (fun _ _ => True) known_args size b zarr disk Hs known_allows g' ct H') as (_ & seen & ok & HI).
  destruct (counts_sum (live_tiles g')) as (l & Hl & Hsum).
  { intros t' (k & Ht')%live_tile_at. destruct (root_rep _ _ _ _ _ _ _ _ HI Ht') as (x & y & ct' & (((Q1 & Q2 & Q3 & Q4) & HR & Hin) & _) & Hne).
    destruct (counted_sum r t') as (l & H1 & H2); [lia| |by eapply HC|].
    - rewrite (tr_data _ _ HR). unfold in_tile. by rewrite Q1, Q2, Q3.
    - exists l. split; [done|]. rewrite H2. unfold t_points_count, pts. by destruct (t_data t'). }
  assert (Hcnt : g_points_count sr_ops g' = length (all_points ct)).
  { eapply (root_count sr_ops (new_sr_meta 0 0 size b zarr)); [by apply steps_laws|done|exact HI]. }
  exists (concat l). rewrite Hl. split; [done|]. split; [|done]. rewrite Hsum. unfold g_points_count in Hcnt. cbn [sr_ops op_count] in Hcnt.
  by rewrite Hcnt.
Qed.

(** ** Neighbours *)
Section neighbours.
  Context (m0 : gmeta) (b : bool) (Hs : 0 < m_tile_size m0).
  Notation s := (m_tile_size m0).
  Notation rep := (sr_rep s b).
  (** The tile in row [r], column [c] of the array, if there is one. *)
  Definition tile_rc (g : sr_grid) (nx ny : nat) (r c : Z) : option tile :=
    if bool_decide (0 <= r < Z.of_nat ny) && bool_decide (0 <= c < Z.of_nat nx) then tile_at g (Z.to_nat r * nx + Z.to_nat c)%nat else None.
  Lemma tile_rc_points g ct lx ly nx ny a r c : placed m0 rep g ct lx ly nx ny a ->
    let x := lx + c * s in let y := ly + r * s in
    let l := filter (fun p => in_square x y s (px p) (py p)) (all_points ct) in
    match tile_rc g nx ny r c with Some t => t_data t = Some l /\ at_square t x y s b | None => l = [] end.
  Proof using Hs.
    intros HPl x y l. unfold tile_rc. destruct (decide (0 <= r < Z.of_nat ny /\ 0 <= c < Z.of_nat nx)) as [[H1 H2]|Hno].
    - rewrite !bool_decide_eq_true_2 by done. cbn [andb].
      set (k := (Z.to_nat r * nx + Z.to_nat c)%nat).
      assert (Hk : (k < ny * nx)%nat) by (apply flat_lt; lia).
      assert (Ho : origin_at g k = Some (x, y)).
      { rewrite (std_origin m0 _ _ _ _ _ _ (pl_geom _ _ _ _ _ _ _ _ _ HPl) Hk). unfold k. rewrite flat_mod, flat_div by lia. unfold x, y. do 2 f_equal; f_equal; lia. }
      pose proof (placed_loc _ _ _ _ _ _ _ _ _ _ _ _ HPl Ho) as HL. destruct (tile_at g k) as [t|]; cbn in HL.
      + destruct HL as (Hne & HQ & HR & _). split; [|done]. rewrite (rep_data _ _ HR Hne). by rewrite content_in_points.
      + unfold l. rewrite <- content_in_points, HL. done.
    - assert (E : bool_decide (0 <= r < Z.of_nat ny) && bool_decide (0 <= c < Z.of_nat nx) = false).
      { apply andb_false_iff. destruct (decide (0 <= r < Z.of_nat ny)) as [H1|H1]; [right|left]; apply bool_decide_eq_false_2; [intros H2; apply Hno; done|done]. }
      rewrite E. unfold l. destruct (filter _ (all_points ct)) as [|p l'] eqn:El; [done|]. exfalso.
      assert (Hp : p ∈ filter (fun p => in_square x y s (px p) (py p)) (all_points ct)) by (rewrite El; left).
      apply elem_of_list_filter in Hp as [Hsq Hp].
      pose proof (pl_rect _ _ _ _ _ _ _ _ _ HPl) as HF. rewrite Forall_forall in HF.
      specialize (HF (xy_of p) (elem_of_list_fmap_1 xy_of _ _ Hp)). unfold in_rect in HF. unfold in_square, x, y in Hsq. unfold xy_of in HF. cbn in HF.
      apply Hno. nia.
  Qed.

  Lemma neighbour_rc g ct lx ly nx ny a k sd : placed m0 rep g ct lx ly nx ny a -> (k < ny * nx)%nat ->
    let r := Z.of_nat (k / nx) in let c := Z.of_nat (k mod nx) in
    neighbour g k sd = match sd with
      | Above => tile_rc g nx ny (r - 1) c | Right => tile_rc g nx ny r (c + 1)
      | Below => tile_rc g nx ny (r + 1) c | Left => tile_rc g nx ny r (c - 1) end.
  Proof.
    intros HPl Hk r c. unfold neighbour. rewrite (pl_tiles _ _ _ _ _ _ _ _ _ HPl), (pl_rows _ _ _ _ _ _ _ _ _ HPl), (pl_cols _ _ _ _ _ _ _ _ _ HPl).
    destruct (flat_div_lt _ _ _ Hk) as [H1 H2]. assert (Hn : (0 < nx)%nat) by lia.
    pose proof (Nat.div_mod k nx ltac:(lia)) as Hdm. unfold neighbour_index, tile_rc, r, c.
    assert (T : forall P Q : Prop, forall (dp : Decision P) (dq : Decision Q), P -> Q -> bool_decide P && bool_decide Q = true).
    { intros. by rewrite !bool_decide_eq_true_2. }
    assert (F : forall P Q : Prop, forall (dp : Decision P) (dq : Decision Q), ~ (P /\ Q) -> bool_decide P && bool_decide Q = false).
    { intros P Q dp dq H. apply andb_false_iff. destruct (decide P); [right|left]; apply bool_decide_eq_false_2; tauto. }
    destruct sd.
    - destruct (Nat.eqb_spec (k / nx) 0); [rewrite F by lia; done|]. rewrite T by lia. f_equal.
      replace (Z.to_nat (Z.of_nat (k / nx) - 1)) with (k / nx - 1)%nat by lia. rewrite Nat2Z.id. nia.
    - destruct (Nat.ltb_spec (S (k mod nx)) nx); [|rewrite F by lia; done]. rewrite T by lia. f_equal.
      replace (Z.to_nat (Z.of_nat (k mod nx) + 1)) with (S (k mod nx)) by lia. rewrite Nat2Z.id. nia.
    - destruct (Nat.ltb_spec (S (k / nx)) ny); [|rewrite F by lia; done]. rewrite T by lia. f_equal.
      replace (Z.to_nat (Z.of_nat (k / nx) + 1)) with (S (k / nx)) by lia. rewrite Nat2Z.id. nia.
    - destruct (Nat.eqb_spec (k mod nx) 0); [rewrite F by lia; done|]. rewrite T by lia. f_equal.
      replace (Z.to_nat (Z.of_nat (k mod nx) - 1)) with (k mod nx - 1)%nat by lia. rewrite Nat2Z.id. nia.
  Qed.

  Lemma strip_points g ct lx ly nx ny a k x y q : placed m0 rep g ct lx ly nx ny a -> origin_at g k = Some (x, y) ->
    get_tile_neighbor_points sr_ops g k q = Ok (match border_points s x y q (all_points ct) with [] => None | d => Some d end).
  Proof using Hs.
    intros HPl Ho. pose proof (std_origin_bound m0 _ _ _ _ _ _ _ (pl_geom _ _ _ _ _ _ _ _ _ HPl) Ho) as Hk.
    rewrite (std_origin m0 _ _ _ _ _ _ (pl_geom _ _ _ _ _ _ _ _ _ HPl) Hk) in Ho. injection Ho as <- <-.
    set (r := Z.of_nat (k / nx)). set (c := Z.of_nat (k mod nx)). set (d := all_points ct).
    assert (HS : forall sd r' c' (P : point -> Prop) (dP : forall p, Decision (P p)),
      neighbour g k sd = tile_rc g nx ny r' c' ->
      (forall t, at_square t (lx + c' * s) (ly + r' * s) s b -> forall dd, t_data t = Some dd ->
         t_strip t sd q = Ok (filter P dd)) ->
      neighbour_strip sr_ops g k q sd = Ok (filter P (filter (fun p => in_square (lx + c' * s) (ly + r' * s) s (px p) (py p)) d))).
    { intros sd r' c' P dP Hn Hst. unfold neighbour_strip. rewrite Hn.
      pose proof (tile_rc_points g ct lx ly nx ny a r' c' HPl) as HR. cbv zeta in HR. fold d in HR.
      destruct (tile_rc g nx ny r' c') as [t|]; [|by rewrite HR]. destruct HR as [HR1 HR2]. cbn. by apply Hst. }
    assert (Q1 : forall u v : Z, Qle_bool (inject_Z u - q) (inject_Z v) = Qle_bool (inject_Z (u - v)) q).
    { intros u v. apply eq_true_iff_eq. rewrite !Qle_bool_iff. unfold Z.sub. rewrite inject_Z_plus, inject_Z_opp. split; intros; lra. }
    assert (Q2 : forall u v : Z, Qle_bool (inject_Z v) (inject_Z u + q) = Qle_bool (inject_Z (v - u)) q).
    { intros u v. apply eq_true_iff_eq. rewrite !Qle_bool_iff. unfold Z.sub. rewrite inject_Z_plus, inject_Z_opp. split; intros; lra. }
    pose proof (neighbour_rc g ct lx ly nx ny a k) as HN. cbv zeta in HN. fold r c in HN.
    unfold get_tile_neighbor_points. cbn [rmap].
    rewrite (HS Above (r - 1) c (fun p => Qle_bool (inject_Z (ly + r * s - py p)) q = true) _ (HN Above HPl Hk)).
    2:{ intros t (_ & E2 & E3 & _) dd Hd. unfold t_strip, t_max_y. rewrite Hd. f_equal. apply list_filter_iff. intros p.
        rewrite E2, E3. replace (ly + (r - 1) * s + s) with (ly + r * s) by lia. by rewrite Q1. }
    rewrite (HS Right r (c + 1) (fun p => Qle_bool (inject_Z (px p - (lx + c * s + s))) q = true) _ (HN Right HPl Hk)).
    2:{ intros t (E1 & _) dd Hd. unfold t_strip. rewrite Hd. f_equal. apply list_filter_iff. intros p.
        rewrite E1. replace (lx + (c + 1) * s) with (lx + c * s + s) by lia. by rewrite Q2. }
    rewrite (HS Below (r + 1) c (fun p => Qle_bool (inject_Z (py p - (ly + r * s + s))) q = true) _ (HN Below HPl Hk)).
    2:{ intros t (_ & E2 & _) dd Hd. unfold t_strip. rewrite Hd. f_equal. apply list_filter_iff. intros p.
        rewrite E2. replace (ly + (r + 1) * s) with (ly + r * s + s) by lia. by rewrite Q2. }
    rewrite (HS Left r (c - 1) (fun p => Qle_bool (inject_Z (lx + c * s - px p)) q = true) _ (HN Left HPl Hk)).
    2:{ intros t (E1 & _ & E3 & _) dd Hd. unfold t_strip, t_max_x. rewrite Hd. f_equal. apply list_filter_iff. intros p.
        rewrite E1, E3. replace (lx + (c - 1) * s + s) with (lx + c * s) by lia. by rewrite Q1. }
    cbn [rbind concat]. rewrite app_nil_r. f_equal.
    assert (Hff : forall (P1 P2 : point -> Prop) (d1 : forall p, Decision (P1 p)) (d2 : forall p, Decision (P2 p)) (l : list point),
      filter P2 (filter P1 l) = filter (fun p => P1 p /\ P2 p) l).
    { intros P1 P2 d1 d2 l. rewrite list_filter_filter. apply list_filter_iff. tauto. }
    rewrite !Hff. unfold border_points. fold d.
    replace (ly + (r - 1) * s) with (ly + r * s - s) by lia. replace (ly + (r + 1) * s) with (ly + r * s + s) by lia.
    replace (lx + (c - 1) * s) with (lx + c * s - s) by lia. replace (lx + (c + 1) * s) with (lx + c * s + s) by lia. done.
  Qed.
End neighbours.
