(** Interrupted saves. *)
From Verif Require Import Py Nd Numpy Point Bin Algorithms Tile Time Meta Disk Grid GridRun GridQuery GridOps Export Spec TileExec GridExec Store StoreExec
  PyFacts NumpyFacts TileFacts TileGridFacts TileRunFacts TileHistFacts GridCountFacts FsFacts TileStoreFacts.
Open Scope Z_scope.

Lemma dget_suffer h f p : dget (suffer h f) p = match h p with Kept => dget f p | Torn => tear <$> dget f p | Gone => None end.
Proof.
  induction f as [|[q v] f IH]; [by destruct (h p)|]. unfold suffer in *. cbn [omap list_omap dget fst snd]. destruct (decide (p = q)) as [->|Hp].
  - destruct (h q); cbn [dget]; rewrite ?decide_True by done; [done|done|]. rewrite IH. done.
  - destruct (h q); cbn [dget fst]; rewrite ?decide_False by done; exact IH.
Qed.
Lemma fsub_suffer h f n : (forall q, h (n :: q) = Kept) -> fsub (suffer h f) n = fsub f n.
Proof.
  intros H. unfold suffer. induction f as [|[q v] f IH]; [done|]. cbn [omap list_omap fst snd]. rewrite fsub_cons. cbn [fst snd]. rewrite <- IH.
  destruct q as [|m q].
  - destruct (h []); rewrite ?fsub_cons; done.
  - destruct (decide (m = n)) as [->|Hn].
    + rewrite H, fsub_cons. cbn. by rewrite decide_True.
    + destruct (h (m :: q)); rewrite ?fsub_cons; cbn; rewrite ?decide_False by done; done.
Qed.
Lemma torn_out f f' n s m : n <> m -> torn_by (prim_in n s) f f' -> fsub f' m = fsub f m.
Proof.
  intros H. destruct s as [p|p l|p|p]; cbn.
  - by intros ->.
  - intros ->. apply fsub_dset_other. congruence.
  - intros [h ->]. apply fsub_suffer. intros q. by rewrite under_other.
  - intros [h ->]. apply fsub_suffer. intros q. by rewrite under_cell_other.
Qed.
Lemma torn_top f f' n s p : head p <> Some n -> torn_by (prim_in n s) f f' -> dget f' p = dget f p.
Proof.
  intros H. assert (Hp : forall q, p <> n :: q) by (intros q ->; done). destruct s as [q|q l|q|q]; cbn.
  - by intros ->.
  - intros ->. by rewrite dget_dset_ne.
  - intros [h ->]. rewrite dget_suffer. destruct p as [|m p]; [done|]. by rewrite under_other by (intros ->; done).
  - intros [h ->]. rewrite dget_suffer. destruct p as [|m p]; [done|]. by rewrite under_cell_other by (intros ->; done).
Qed.
Lemma crash_nil f f' : crashed f [] f' -> f' = f.
Proof. intros H. by inversion H. Qed.
Lemma crash_cons f s l f' : crashed f (s :: l) f' -> f' = f \/ torn_by s f f' \/ crashed (fs_step f s) l f'.
Proof. intros H. inversion H; subst; [by left|right; by left|right; by right]. Qed.
Lemma crash_prefix l k : forall f, crashed f l (fs_run f (take k l)).
Proof. revert k. induction l as [|s l IH]; intros [|k] f; try apply CrashHere. apply CrashLater, IH. Qed.
Lemma crash_in_step l k s f' : forall f, l !! k = Some s -> torn_by s (fs_run f (take k l)) f' -> crashed f l f'.
Proof. revert k. induction l as [|s0 l IH]; intros [|k] f; try done. - intros [= ->] H. by apply CrashIn. - intros H1 H2. apply CrashLater. by apply (IH k). Qed.
Lemma crash_out f n l f' m : n <> m -> crashed f (prims_in n l) f' -> fsub f' m = fsub f m.
Proof.
  intros H. revert f. induction l as [|s l IH]; intros f Hc; inversion Hc; subst; try done.
  - by eapply torn_out.
  - rewrite (IH (fs_step f (prim_in n s))) by done. by apply step_out.
Qed.
Lemma crash_top f n l f' p : head p <> Some n -> crashed f (prims_in n l) f' -> dget f' p = dget f p.
Proof.
  intros H. revert f. induction l as [|s l IH]; intros f Hc; inversion Hc; subst; try done.
  - by eapply torn_top.
  - rewrite (IH (fs_step f (prim_in n s))) by done. by apply step_top.
Qed.

(** ** The points *)
(** The points entry during a save: only these values are seen. *)
Definition points_left (F : fs) (new : list point) (F' : fs) : Prop :=
  dget F' [FData] = dget F [FData] \/ leaf_at F' FData (LPoints new) \/ forall d, ~ leaf_at F' FData (LPoints d).
(** Steps that leave the points alone *)
Definition spares (s : prim) : Prop := forall f, dget (fs_step f s) [FData] = dget f [FData] /\ forall f', torn_by s f f' -> dget f' [FData] = dget f [FData].
Lemma spares_write n l : n <> FData -> spares (PWrite [n] l).
Proof. intros H f. cbn. split; [by rewrite dget_dset_ne by congruence|]. intros f' ->. by rewrite dget_dset_ne by congruence. Qed.
Lemma spares_rm n : n <> FData -> spares (PRm [n]).
Proof.
  intros H f. cbn. split; [unfold fs_rm; rewrite (dget_filter (under [n]))|intros f' [h ->]; rewrite dget_suffer]; by rewrite under_one, bool_decide_eq_false_2.
Qed.
Lemma spares_cells : spares (PRmCells []).
Proof.
  intros f. cbn. split; [rewrite (dget_filter (under_cell []))|intros f' [h ->]; rewrite dget_suffer]; unfold under_cell; by destruct (decide _).
Qed.
Lemma spares_mkdir : spares (PMkdir []).
Proof. intros f. cbn. split; [destruct (fs_exists f []); [done|by rewrite dget_dset_ne]|by intros f' ->]. Qed.
Lemma spares_arrays ws : FData ∉ ws.*1 -> Forall spares (arrays ws).
Proof.
  induction ws as [|[n l] ws IH]; intros H; [constructor|]. cbn in H. apply not_elem_of_cons in H as [H1 H2]. unfold arrays in *. cbn [map concat]. unfold save_array. cbn [app].
  constructor; [apply spares_rm; intros E; by destruct H1|]. constructor; [apply spares_write; intros E; by destruct H1|]. by apply IH.
Qed.
Lemma crash_spared f l f' : Forall spares l -> crashed f l f' -> dget f' [FData] = dget f [FData].
Proof.
  intros H. revert f. induction H as [|s l Hs Hl IH]; intros f Hc; inversion Hc; subst; try done.
  - by apply (Hs f).
  - rewrite (IH (fs_step f s)) by done. exact (proj1 (Hs f)).
Qed.
Lemma run_spared f l : Forall spares l -> dget (fs_run f l) [FData] = dget f [FData].
Proof. intros H. revert f. induction H as [|s l Hs Hl IH]; intros f; [done|]. unfold fs_run in *. cbn [foldl]. rewrite IH. exact (proj1 (Hs f)). Qed.
Lemma crash_app f a b f' : crashed f (a ++ b) f' -> crashed f a f' \/ crashed (fs_run f a) b f'.
Proof.
  revert f. induction a as [|s a IH]; intros f; [by right|]. cbn [app]. intros [->|[Hc|Hc]]%crash_cons.
  - left. constructor.
  - left. by apply CrashIn.
  - destruct (IH _ Hc) as [H|H]; [left; by apply CrashLater|by right].
Qed.
Lemma grid_part_spares t m : Forall spares (grid_part t m).
Proof.
  unfold grid_part. destruct (saves_grid m); [|constructor]. constructor; [apply spares_cells|]. apply spares_arrays. intros (r & H & _)%grid_writes_rez. done.
Qed.
Lemma idx_spares ix : Forall spares (arrays (idx_writes ix)).
Proof. apply spares_arrays. unfold idx_writes. intros H. apply elem_of_list_fmap in H as (w & Hw & H). apply elem_of_list_fmap in H as (y & -> & _). done. Qed.
Lemma crash_data F new F' : crashed F (arrays [(FData, LPoints new)]) F' -> points_left F new F'.
Proof.
  intros H. unfold arrays in H. cbn [map concat fst snd] in H. unfold save_array in H. cbn [app] in H. apply crash_cons in H as [->|[H|H]].
  - by left.
  - cbn in H. destruct H as [h ->]. unfold points_left. rewrite dget_suffer. rewrite under_one, bool_decide_eq_true_2 by done. destruct (h [FData]) eqn:E; [by left| |].
    + right. right. intros d. unfold leaf_at. rewrite dget_suffer, under_one, bool_decide_eq_true_2, E by done. by destruct (dget F [FData]) as [[|]|].
    + right. right. intros d. unfold leaf_at. by rewrite dget_suffer, under_one, bool_decide_eq_true_2, E.
  - apply crash_cons in H as [->|[H|H]].
    + right. right. intros d. unfold leaf_at. cbn. unfold fs_rm. by rewrite (dget_filter (under [FData])), under_one, bool_decide_eq_true_2.
    + cbn in H. subst. right. right. intros d. unfold leaf_at. by rewrite dget_dset_eq.
    + apply crash_nil in H as ->. right. left. unfold leaf_at. cbn. by rewrite dget_dset_eq.
Qed.
Lemma crash_points F t m F' : crashed F (save_tile (Some t) m) F' ->
  (saves_points m = false -> dget F' [FData] = dget F [FData]) /\ points_left F (default [] (t_data t)) F'.
Proof.
  intros H. cbn [save_tile] in H.
  change (PMkdir [] :: PWrite [FMeta] (LTileMeta (tile_meta t)) :: save_tile_data t m) with ([PMkdir []; PWrite [FMeta] (LTileMeta (tile_meta t))] ++ save_tile_data t m) in H.
  assert (H0 : Forall spares [PMkdir []; PWrite [FMeta] (LTileMeta (tile_meta t))]).
  { constructor; [apply spares_mkdir|]. constructor; [by apply spares_write|constructor]. }
  assert (HT : Forall spares (grid_part t m ++ arrays (idx_writes (t_indices t)))).
  { apply Forall_app. split; [apply grid_part_spares|apply idx_spares]. }
  apply crash_app in H as [H|H]. { split; [intros _|left]; by apply (crash_spared _ _ _ H0). }
  rewrite <- (run_spared F _ H0). unfold points_left. rewrite <- (run_spared F _ H0). set (F0 := fs_run F [PMkdir []; PWrite [FMeta] (LTileMeta (tile_meta t))]) in *. clearbody F0.
  rewrite save_tile_data_parts in H. apply crash_app in H as [H|H].
  - unfold data_part in H. destruct (saves_points m); [|split; [intros _|left]; by inversion H]. split; [done|]. by apply crash_data.
  - apply (crash_spared _ _ _ HT) in H. unfold leaf_at. rewrite H, data_part_get. rewrite bool_decide_eq_true_2 by done. cbn [andb]. destruct (saves_points m).
    + split; [done|]. right. left. done.
    + split; [done|by left].
Qed.
Lemma crash_cleared F F' : crashed F (save_tile None SaveAll) F' -> dget F' [FData] = dget F [FData] \/ forall d, ~ leaf_at F' FData (LPoints d).
Proof.
  intros H. cbn in H. apply crash_cons in H as [->|[H|H]]; [by left| |].
  - cbn in H. destruct H as [h ->]. unfold leaf_at. rewrite dget_suffer. cbn. destruct (h [FData]); [by left|right..].
    + by destruct (dget F [FData]) as [[|]|].
    + done.
  - apply crash_nil in H as ->. right. intros d. unfold leaf_at. cbn. unfold fs_rm. by rewrite (dget_filter (under [])).
Qed.
Lemma load_data F t : load_sr_tile F = Ok (Some t) -> exists d, t_data t = Some d /\ leaf_at F FData (LPoints d).
Proof.
  unfold load_sr_tile, load_tile. destruct (fs_exists F []); [|done]. cbn [app]. destruct (fs_read F [FMeta]) as [[]|]; try done. cbn [saves_points saves_grid]. cbv zeta.
  intros (t2 & H2 & H)%rbind_Ok. apply rbind_Ok in H2 as (d & Hd & H2). injection H2 as <-. exists d. unfold read_points in Hd. unfold leaf_at.
  unfold fs_read in Hd. destruct (dget F [FData]) as [[|l]|] eqn:E; try done. destruct l; try done. injection Hd as ->. split; [|done].
  apply rbind_Ok in H as (t3 & H3 & H). apply rbind_Ok in H as (t4 & H4 & H). injection H as <-.
  assert (HA : forall (f : res tile -> Z -> res tile) rs, (forall a r b, f a r = Ok b -> exists u, a = Ok u /\ t_data b = t_data u) ->
    forall a b, foldl f a rs = Ok b -> exists u, a = Ok u /\ t_data b = t_data u).
  { intros f rs Hf. induction rs as [|r rs IH]; intros a b; cbn [foldl]; [by exists b|]. intros Hb. destruct (IH _ _ Hb) as (u & H5 & H6). destruct (Hf _ _ _ H5) as (v & H7 & H8). exists v. split; [done|congruence]. }
  eapply HA in H4 as (u & H5 & H6).
  2: { intros a r b (t5 & -> & Hb)%rbind_Ok. apply rbind_Ok in Hb as (i & _ & Hb). injection Hb as <-. by exists t5. }
  injection H5 as ->. eapply HA in H3 as (u3 & H7 & H8).
  2: { intros a r b (t5 & -> & Hb)%rbind_Ok. apply rbind_Ok in Hb as (i & _ & Hb). apply rbind_Ok in Hb as (i2 & _ & Hb). apply rbind_Ok in Hb as (i3 & _ & Hb). injection Hb as <-. by exists t5. }
  injection H7 as <-. by rewrite H6, H8.
Qed.

(** ** Tiles that can be saved *)
Lemma nodup_dmapv {K V W} `{EqDecision K} (f : V -> W) (d : dict K V) : NoDup (dkeys d) -> NoDup (dkeys (dmapv f d)).
Proof. by rewrite dkeys_dmapv. Qed.
Lemma clear_all_indices t rs : t_indices (clear_temp_all t rs) = t_indices t.
Proof. unfold clear_temp_all. revert t. induction rs as [|r rs IH]; intros t; [done|]. cbn [foldl]. by rewrite IH. Qed.
Lemma remove_indices_nodup t c : NoDup (dkeys (t_indices t)) -> NoDup (dkeys (t_indices (t_remove_points t c))).
Proof.
  intros H. unfold t_remove_points. destruct (dget _ _) as [[s0 e0]|]; [|done]. destruct (t_data t); [|done]. cbv zeta.
  match goal with |- NoDup (dkeys (t_indices (?x <| t_data := ?a |> <| t_container := ?b |> <| t_changed := ?c |>))) => change (NoDup (dkeys (t_indices x))) end.
  rewrite clear_all_indices. by apply nodup_dmapv.
Qed.
Lemma add_indices_nodup t d c : NoDup (dkeys (t_indices t)) -> NoDup (dkeys (t_indices (t_add_points t d c))).
Proof.
  intros H. unfold t_add_points. destruct (t_data t); [|by apply nodup_dmapv]. cbv zeta.
  match goal with |- NoDup (dkeys (t_indices (?x <| t_changed := ?c |>))) => change (NoDup (dkeys (t_indices x))) end.
  rewrite clear_all_indices. apply nodup_dmapv. destruct (dmem _ _); [by apply remove_indices_nodup|done].
Qed.
Lemma query_indices e t layer ro nodata up t' o : t_get_layers_by_name e t layer ro nodata up = Ok (t', o) -> t_indices t' = t_indices t.
Proof.
  unfold t_get_layers_by_name. destruct (t_is_empty t); [by intros [= <- _]|]. intros (mr & Hmr & H)%rbind_Ok.
  destruct mr as [r0|]; [|by injection H as <- _]. apply rbind_Ok in H as (t1 & H1 & H). apply rbind_Ok in H as (a & _ & H). injection H as <- _.
  unfold prepare_query in H1. case_bool_decide.
  { unfold run_slopes in H1. destruct (dmem _ _); [by injection H1 as <-|]. repeat (apply rbind_Ok in H1 as (? & _ & H1)). by injection H1 as <-. }
  destruct (is_container_query layer); [|by injection H1 as <-]. destruct (dmem (t_container t) layer).
  - assert (HC : forall a, run_simple_container a t r0 layer = Ok t1 -> t_indices t1 = t_indices t).
    { intros a0. unfold run_simple_container. destruct (t_data t); [|done]. intros HX. repeat (apply rbind_Ok in HX as (? & _ & HX)). by injection HX as <-. }
    repeat case_bool_decide; [by eapply HC..|by destruct (e_cube_enabled e)|by injection H1 as <-].
  - apply rbind_Ok in H1 as (? & _ & H1). by injection H1 as <-.
Qed.
Lemma reach_indices q e x y s b t : 0 < s -> tile_reach q e x y s b t -> NoDup (dkeys (t_indices t)).
Proof.
  intros Hs. induction 1 as [|t d c H IH Hd|t c H IH|t alg ro clear mode gp border t' r H IH HA HC Hg|t layer ro nodata up t' o H IH Hq Hg|t m H IH].
  - apply NoDup_nil_2.
  - by apply add_indices_nodup.
  - by apply remove_indices_nodup.
  - destruct (reach_good _ _ _ _ _ _ _ Hs H) as (HG & _ & _). apply known_elem in HA.
    assert (HC' : clear = true \/ compat e t alg) by (destruct HC; [by left|right; by apply compat_kind]).
    destruct (t_grid_inv_ok _ _ _ _ _ _ _ _ _ _ HG HA HC' Hg) as (l' & HT & _). rewrite (gt_idx _ _ _ _ _ _ _ _ _ HT). by apply NoDup_dset.
  - by rewrite (query_indices _ _ _ _ _ _ _ _ Hg).
  - unfold t_reload. by destruct (saves_grid m).
Qed.
Lemma good_plain e t : good e t -> is_Some (t_data t) -> NoDup (dkeys (t_cells t)) -> NoDup (dkeys (t_indices t)) -> exact_layers e t -> plain_tile t.
Proof.
  intros HG Hd H1 H2 HX. split; [done..| |].
  - intros r [l Hl]%dget_is_Some. destruct (g_cells _ _ HG r l Hl) as (G1 & G2 & G3 & G4 & alg & G5 & G6 & G7 & G8). split; [by rewrite G3|]. split; [by rewrite G4|]. split; [done|].
    exists (t_depth_key t). unfold layer_of. rewrite Hl. apply G7. by apply alg_keys_depth.
  - intros r name Hn. unfold layer_of in Hn. destruct (dget (t_cells t) r) as [l|] eqn:Hl; [|by destruct Hn].
    destruct (g_cells _ _ HG r l Hl) as (G1 & G2 & G3 & G4 & alg & G5 & G6 & G7 & G8). eapply (alg_keys_stored e t); [exact G6|]. by eapply HX.
Qed.
Lemma reach_plain e x y s b t : 0 < s -> tile_reach false e x y s b t -> is_Some (t_data t) -> plain_tile t.
Proof.
  intros Hs H Hd. destruct (reach_good _ _ _ _ _ _ _ Hs H) as (HG & _ & HX). eapply good_plain; [exact HG|done|apply (reach_headed _ _ _ _ _ _ _ H)|by eapply reach_indices|by apply HX].
Qed.
Lemma clear_grid_plain q e x y s b t alg ro mode gp border t' r : 0 < s -> tile_reach q e x y s b t -> alg ∈ ["mean"; "shoalest"; "cube"] ->
  t_grid e t alg ro true mode gp border = Ok (t', r) -> plain_tile t' /\ dkeys (t_cells t') = [r].
Proof.
  intros Hs H HA Hg. destruct (reach_good _ _ _ _ _ _ _ Hs H) as (HG & _ & _). pose proof (proj1 (known_elem alg) HA) as HK.
  destruct (t_grid_inv _ _ _ _ _ _ _ _ _ _ HK Hg) as (_ & _ & (d & Hd) & _).
  destruct (t_grid_inv_ok _ _ _ _ _ _ _ _ _ _ HG HK (or_introl eq_refl) Hg) as (l' & HT & _).
  assert (HR : tile_reach q e x y s b t') by (eapply TR_grid; [exact H|exact HA|by left|exact Hg]).
  split; [|by rewrite (gt_cells _ _ _ _ _ _ _ _ _ HT)].
  eapply good_plain; [apply HT| |apply (reach_headed _ _ _ _ _ _ _ HR)|by eapply reach_indices|].
  - rewrite (gt_data _ _ _ _ _ _ _ _ _ HT), Hd. done.
  - intros k l alg' Hl Ha name Hn. rewrite (gt_cells _ _ _ _ _ _ _ _ _ HT) in Hl. rewrite (gt_alg _ _ _ _ _ _ _ _ _ HT) in Ha. injection Ha as <-.
    cbn in Hl. destruct (decide (k = r)); [|done]. injection Hl as <-. apply (gt_keys _ _ _ _ _ _ _ _ _ HT) in Hn as [Hn|[? _]]; [|done].
    unfold t_depth_key. destruct (gt_frame _ _ _ _ _ _ _ _ _ HT) as (_ & _ & _ & ->). done.
Qed.
