(** Tile queries: container grids, presentation of a layer, flags, depth bands. *)
From Coq Require Import Lqa.
From Verif Require Import Py Nd Numpy Point Bin Algorithms Tile Disk Spec TileExec
  PyFacts NdFacts NumpyFacts AlgFacts BinFacts TileFacts TileGridFacts TileSpecFacts TileRunFacts TileHistFacts
  ShoalFacts TilePropFacts.
Open Scope Z_scope.
Ltac Zify.zify_post_hook ::= Z.div_mod_to_equations.

Lemma str_length_app a b : String.length (a +:+ b) = (String.length a + String.length b)%nat.
Proof.
  induction a as [|x a IH]; [done|].
  change (S (String.length (a +:+ b)) = S (String.length a + String.length b)). by rewrite IH.
Qed.

(** ** The points of one container *)
Lemma slice_mid {A} (l1 l2 l3 : list A) : slice (l1 ++ l2 ++ l3) (length l1) (length l1 + length l2) = l2.
Proof.
  unfold slice. rewrite drop_app. replace (length l1 + length l2 - length l1)%nat with (length l2) by lia.
  apply take_app.
Qed.
Lemma rep_container t ct c d :
  tile_rep t ct -> (c, d) ∈ ct ->
  exists l1 l3, pts t = l1 ++ d ++ l3 /\ dget (t_container t) c = Some (length l1, length l1 + length d)%nat.
Proof.
  intros HR Hin. assert (Hc : c ∈ ct.*1) by (apply elem_of_list_fmap; by exists (c, d)).
  destruct (content_split ct c Hc (tr_nodup _ _ HR)) as (a & d' & b & Hct & Ha & Hb).
  assert (d' = d) as ->.
  { pose proof (tr_nodup _ _ HR) as Hnd.
    assert (H1 : dget ct c = Some d) by (by apply dget_elem_NoDup).
    assert (H2 : dget ct c = Some d').
    { apply dget_elem_NoDup; [done|]. rewrite Hct. apply elem_of_app. right. left. }
    congruence. }
  exists (all_points a), (all_points b). rewrite (tr_data _ _ HR), Hct, all_points_app. split; [done|].
  rewrite (tr_cont _ _ HR), Hct, ranges_app. rewrite dget_app.
  assert (Hn : dget (ranges 0 a) c = None) by (apply dget_None; by rewrite ranges_keys).
  rewrite Hn. cbn [ranges dget]. by rewrite decide_True.
Qed.

(** The same environment without the uncertainty columns. *)
Definition bare (e : env) : env :=
  Env (Dtype false false) (e_tpq e) (e_cube_enabled e) (e_cube e) (e_sqrt e) (e_lstsq e).

Lemma container_query_layers e t t1 a r clear gp border l ct c d :
  good e t -> 0 < r -> gridded_tile e t t1 (alg_name a) r clear gp border l -> tile_rep t ct -> (c, d) ∈ ct ->
  run_simple_container a t1 r c =
    Ok (set_layers t1 r (dset (dset l c (depth_spec t a r pz d)) (c +:+ "_density") (density_spec t r d))).
Proof.
  intros HG Hr HT HR Hc. unfold run_simple_container.
  pose proof (rep_container t ct c d HR Hc) as (l1 & l3 & Hpts & Hcont).
  assert (HA : known_alg (alg_name a)) by (destruct a; [left|right; left]; done).
  assert (Hd : exists dt, t_data t1 = Some dt /\ dt = pts t).
  { rewrite (gt_data _ _ _ _ _ _ _ _ _ HT). unfold pts. destruct (t_data t) as [dt|] eqn:E; [eauto|].
    exfalso. apply (tr_none _ _ HR) in E. subst ct. by apply elem_of_nil in Hc. }
  destruct Hd as (dt & -> & ->). rewrite (gt_cont _ _ _ _ _ _ _ _ _ HT), Hcont. cbn [rofopt rbind fst snd].
  pose proof (gridded_get _ _ _ _ _ _ _ _ _ HT) as Hl. rewrite (layers_at_get t1 r l Hl).
  assert (Hk : t_depth_key t1 = t_depth_key t).
  { unfold t_depth_key. destruct (gt_frame _ _ _ _ _ _ _ _ _ HT) as (_ & _ & _ & ->). done. }
  rewrite Hk. destruct (alg_keys_depth e (t_depth_key t) _ HA) as [K1 _].
  destruct (g_cells _ _ (gt_good _ _ _ _ _ _ _ _ _ HT) r l Hl) as (_ & _ & _ & _ & alg & _ & _ & _ & Hshape).
  destruct (dget l (t_depth_key t)) as [dg|] eqn:Hdg.
  2: { rewrite (gt_std _ _ _ _ _ _ _ _ _ HT _ K1) in Hdg.
       destruct (std_layer_total e t (alg_name a) r gp border (pts t) (g_size _ _ HG) Hr (g_in _ _ HG) HA) as [H _].
       { by destruct a. } apply H in K1 as [x Hx]. congruence. }
  cbn [rofopt rbind].
  assert (Hn : ncell t1 r = ncell t r).
  { unfold ncell. destruct (gt_frame _ _ _ _ _ _ _ _ _ HT) as (_ & _ & -> & _). done. }
  apply Hshape in Hdg. rewrite Hn in Hdg. rewrite !(blank_shape _ _ _ _ Hdg).
  rewrite (gt_idx _ _ _ _ _ _ _ _ _ HT), dget_dset_eq. cbn [rofopt rbind]. rewrite Hpts.
  rewrite slice_mid. rewrite !map_app.
  rewrite <- (map_length (cellno t r) l1), <- (map_length (cellno t r) d), slice_mid.
  assert (HF : Forall (in_tile t) d).
  { pose proof (g_in _ _ HG) as HF. rewrite Hpts in HF. apply Forall_app in HF as [_ HF]. by apply Forall_app in HF as [HF _]. }
  destruct (fresh_out_ok (bare e) t a r d (g_size _ _ HG) Hr HF) as [o Ho].
  destruct (fresh_out_spec (bare e) t a r d o (g_size _ _ HG) Hr HF Ho) as (S1 & S2 & _ & _).
  unfold fresh_out in Ho. cbn [bare e_dt has_tvu has_thu opt_vals opt_grid] in Ho.
  rewrite Ho. cbn [rbind]. rewrite S1, S2. done.
Qed.

Lemma density_suffix_ne c : c +:+ "_density" <> "depth" /\ c +:+ "_density" <> "intensity" /\ c +:+ "_density" <> "density".
Proof.
  split; [|split]; intros H; pose proof (f_equal String.length H) as HL; rewrite str_length_app in HL;
    cbn in HL; try lia.
  destruct c as [|x [|y c]]; cbn in HL; try lia. cbv in H. discriminate H.
Qed.

Lemma depth_spec_not_nan t a r f d :
  0 < t_size t -> 0 < r -> Forall (in_tile t) d -> d <> [] -> all_nan (depth_spec t a r f d) = false.
Proof.
  intros Hs Hr HF Hne. destruct d as [|p d]; [done|]. unfold all_nan. apply not_true_iff_false.
  rewrite forallb_forall. intros H.
  set (n := ncell t r). pose proof (cellno_range t r p Hs Hr ltac:(by inversion HF)) as Hc. fold n in Hc.
  set (k := Z.to_nat (cellno t r p)). assert (Hk : (k < n * n)%nat) by (unfold k; lia).
  destruct (flat_div_lt n n k Hk) as [H1 H2].
  assert (Hn : (0 < n)%nat) by (by apply ncell_pos).
  pose proof (nd_get_init n n (fun row col => stat_cell a (map f (tile_cell t r row col (p :: d)))) (k / n) (k mod n) H1 H2) as Hg.
  assert (Hin : p ∈ tile_cell t r (k / n) (k mod n) (p :: d)).
  { rewrite <- (filter_cellno t r _ _ _ Hs Hr HF) by done. apply elem_of_list_filter. split; [|left].
    fold n. rewrite <- (flat_split n k Hn). unfold k. lia. }
  fold n in Hg. unfold depth_spec in H. fold n in H.
  rewrite nd_get_in in Hg by done. apply elem_of_list_lookup_2, elem_of_list_In, H in Hg.
  unfold stat_cell in Hg. destruct (tile_cell t r (k / n) (k mod n) (p :: d)); [by apply elem_of_nil in Hin|]. done.
Qed.

Lemma fill_none (a : arr) : nd_map (cell_fill None) a = a.
Proof.
  unfold nd_map. destruct a as [n m l]. cbn. f_equal. induction l as [|[x|] l IH]; cbn; [done| |]; by rewrite IH.
Qed.

Lemma layers_at_set t r l : layers_at (set_layers t r l) r = l.
Proof. unfold layers_at. change (t_cells (set_layers t r l)) with (dset (t_cells t) r l). by rewrite dget_dset_eq. Qed.

Lemma container_query e t t1 a r clear gp border l ct c d :
  good e t -> 0 < r -> gridded_tile e t t1 (alg_name a) r clear gp border l -> tile_rep t ct -> (c, d) ∈ ct ->
  d <> [] -> is_container_query c = true ->
  exists t2, t_get_layers_by_name e t1 c (Some r) None false = Ok (t2, Some (depth_spec t a r pz d)) /\
    forall name, name <> c -> name <> c +:+ "_density" ->
      dget (layers_at t2 r) name = dget (layers_at t1 r) name.
Proof.
  intros HG Hr HT HR Hc Hne Hq. unfold t_get_layers_by_name.
  pose proof (rep_container t ct c d HR Hc) as (l1 & l3 & Hpts & Hcont).
  assert (He : t_is_empty t1 = false).
  { unfold t_is_empty, t_points_count. rewrite (gt_data _ _ _ _ _ _ _ _ _ HT).
    unfold pts in Hpts. destruct (t_data t) as [dt|] eqn:E; cbn in Hpts.
    - rewrite Hpts, !app_length. destruct d; [done|]. apply Nat.eqb_neq. cbn. lia.
    - exfalso. symmetry in Hpts. apply app_eq_nil in Hpts as [_ H]. apply app_eq_nil in H as [H _]. done. }
  rewrite He. pose proof (gridded_get _ _ _ _ _ _ _ _ _ HT) as Hl.
  assert (Hm : dmem (t_cells t1) r = true) by (apply dmem_true, dget_is_Some; eauto).
  rewrite Hm. cbn [rbind]. unfold prepare_query.
  assert (Hq' : c ∉ float_layers ++ slope_layers ++ int_layers).
  { unfold is_container_query in Hq. apply negb_true_iff, bool_decide_eq_false in Hq. done. }
  rewrite !elem_of_app in Hq'.
  rewrite bool_decide_eq_false_2 by tauto. rewrite Hq.
  assert (Hmc : dmem (t_container t1) c = true).
  { rewrite (gt_cont _ _ _ _ _ _ _ _ _ HT). apply dmem_true, dget_is_Some. eauto. }
  rewrite Hmc, (gt_alg _ _ _ _ _ _ _ _ _ HT).
  pose proof (container_query_layers e t t1 a r clear gp border l ct c d HG Hr HT HR Hc) as Hrun.
  assert (Hprep : (if bool_decide (Some (alg_name a) = Some "mean") then run_simple_container Mean t1 r c
      else if bool_decide (Some (alg_name a) = Some "shoalest") then run_simple_container Shoalest t1 r c
      else if bool_decide (Some (alg_name a) = Some "cube")
        then (if e_cube_enabled e then Raise IndexError else Raise EnvironmentError) else Ok t1) =
      run_simple_container a t1 r c) by (by destruct a).
  rewrite Hprep, Hrun. cbn [rbind].
  assert (Hcc : c <> c +:+ "_density").
  { intros H. apply (f_equal String.length) in H. rewrite str_length_app in H. cbn in H. lia. }
  assert (Hla : layers_at (set_layers t1 r (dset (dset l c (depth_spec t a r pz d)) (c +:+ "_density") (density_spec t r d))) r
     = dset (dset l c (depth_spec t a r pz d)) (c +:+ "_density") (density_spec t r d)).
  { apply layers_at_set. }
  rewrite Hla, dget_dset_ne, dget_dset_eq by done. cbn [rofopt rbind]. eexists. split.
  - unfold present_layer. rewrite depth_spec_not_nan; [|apply HG|done| |done].
    2: { pose proof (g_in _ _ HG) as HF. rewrite Hpts in HF. apply Forall_app in HF as [_ HF]. by apply Forall_app in HF as [HF _]. }
    rewrite andb_false_r. unfold layer_nodata. rewrite bool_decide_eq_false_2 by tauto. by rewrite fill_none.
  - intros name H1 H2. rewrite Hla, !dget_dset_ne by done. by rewrite (layers_at_get t1 r l Hl).
Qed.

(** ** The changed flag *)
Lemma query_changed e t layer ro nodata up t' o :
  t_get_layers_by_name e t layer ro nodata up = Ok (t', o) -> t_changed t' = t_changed t /\ t_container t' = t_container t.
Proof.
  unfold t_get_layers_by_name. destruct (t_is_empty t); [by intros [= <- <-]|].
  intros (mr & _ & H)%rbind_Ok. destruct mr as [r|]; [|by injection H as <- <-].
  apply rbind_Ok in H as (t1 & H1 & H). apply rbind_Ok in H as (a & _ & H). injection H as <- <-.
  revert H1. unfold prepare_query. destruct (bool_decide _).
  - unfold run_slopes. destruct (dmem _ _); [by intros [= <-]|].
    intros (? & _ & H)%rbind_Ok. apply rbind_Ok in H as (? & _ & H). apply rbind_Ok in H as (? & _ & H).
    apply rbind_Ok in H as (? & _ & H). apply rbind_Ok in H as (? & _ & H). by injection H as <-.
  - assert (Hs : forall a, run_simple_container a t r layer = Ok t1 -> t_changed t1 = t_changed t /\ t_container t1 = t_container t).
    { intros a0. unfold run_simple_container. destruct (t_data t); [|done].
      intros (? & _ & H)%rbind_Ok. apply rbind_Ok in H as (? & _ & H). apply rbind_Ok in H as (? & _ & H).
      apply rbind_Ok in H as (? & _ & H). by injection H as <-. }
    destruct (is_container_query layer); [|by intros [= <-]]. destruct (dmem _ _).
    + destruct (bool_decide _); [by apply Hs|]. destruct (bool_decide _); [by apply Hs|].
      destruct (bool_decide _); [by destruct (e_cube_enabled e)|by intros [= <-]].
    + intros (? & _ & H)%rbind_Ok. by injection H as <-.
Qed.
Lemma remove_changed t c ct : tile_rep t ct ->
  t_changed (t_remove_points t c) = if bool_decide (c ∈ ct.*1) then true else t_changed t.
Proof.
  intros HR. case_bool_decide as Hc.
  - destruct (content_split ct c Hc (tr_nodup _ _ HR)) as (a & d & b & Hct & Ha & Hb).
    by destruct (t_remove_present t c ct a d b HR Hct Ha Hb) as (_ & _ & _ & _ & H & _).
  - by rewrite (t_remove_absent t c ct).
Qed.

(** ** Depth bands *)
Lemma first_above (l : list (Z * Z)) (m : Q) :
  (exists i kv, l !! i = Some kv /\ (m < inject_Z kv.1)%Q /\
     forall j kv', (j < i)%nat -> l !! j = Some kv' -> (inject_Z kv'.1 <= m)%Q) \/
  Forall (fun kv => inject_Z kv.1 <= m)%Q l.
Proof.
  induction l as [|kv l IH]; [right; constructor|].
  destruct (Qlt_le_dec m (inject_Z kv.1)) as [H|H].
  - left. exists 0%nat, kv. split; [done|]. split; [done|]. intros j kv' Hj. lia.
  - destruct IH as [(i & kv0 & H1 & H2 & H3)|IH]; [left|right; by constructor].
    exists (S i), kv0. split; [done|]. split; [done|]. intros [|j] kv' Hj; cbn; [by intros [= <-]|].
    intros Hl. apply (H3 j kv'); [lia|done].
Qed.
Definition band_flag (m : Q) (kv : Z * Z) : bool := negb (Qle_bool (inject_Z kv.1 - m) 0).
Lemma band_flag_true m kv : band_flag m kv = true <-> (m < inject_Z kv.1)%Q.
Proof. unfold band_flag. rewrite negb_true_iff, Qle_bool_false. split; intros; lra. Qed.
Lemma band_lookup_for m : (m < 20480)%Q -> band_for m (band_lookup (Some m)).
Proof.
  intros Hm. destruct (first_above documented_bands m) as [(i & [k v] & H1 & H2 & H3)|H].
  - assert (Hv : band_lookup (Some m) = v).
    { unfold band_lookup. change depth_resolution_lookup with documented_bands.
      rewrite (argmax_first _ i).
      - by rewrite H1.
      - rewrite list_lookup_fmap, H1. cbn. f_equal. by apply (band_flag_true m (k, v)).
      - intros j Hj. rewrite list_lookup_fmap. destruct (lookup_lt_is_Some_2 documented_bands j) as [kv Hkv].
        { apply lookup_lt_Some in H1. lia. }
        rewrite Hkv. cbn. f_equal. pose proof (H3 j kv Hj Hkv) as Hle.
        change (band_flag m kv = false). apply not_true_iff_false. rewrite band_flag_true. lra. }
    rewrite Hv. exists i, k. split; [done|]. split; [done|]. intros j k' v' Hj Hl. by apply (H3 j (k', v') Hj).
  - exfalso. rewrite Forall_forall in H. specialize (H (20480, 4096)).
    assert (Hin : (20480, 4096) ∈ documented_bands) by (apply elem_of_list_In; cbn; tauto).
    specialize (H Hin). cbn in H. change (inject_Z 20480) with 20480%Q in H. lra.
Qed.
Lemma bands_sorted : forall i j k v k' v',
  (i <= j)%nat -> documented_bands !! i = Some (k, v) -> documented_bands !! j = Some (k', v') -> k <= k' /\ v <= v'.
Proof.
  intros i j k v k' v' Hij Hi Hj. pose proof (lookup_lt_Some _ _ _ Hj) as Hb.
  change (length documented_bands) with 13%nat in Hb.
  do 13 (destruct j as [|j]; [
    do 13 (destruct i as [|i]; [cbn in Hi, Hj; injection Hi as <- <-; injection Hj as <- <-; lia|]); exfalso; lia|]).
  exfalso; lia.
Qed.
Lemma band_for_mono m m' v v' : (m <= m')%Q -> band_for m v -> band_for m' v' -> v <= v'.
Proof.
  intros Hm (i & k & H1 & H2 & H3) (i' & k' & H1' & H2' & H3').
  destruct (le_lt_dec i i') as [Hle|Hlt].
  - by eapply (bands_sorted i i').
  - specialize (H3 i' k' v' Hlt H1'). lra.
Qed.
Lemma qmean_mean l : l <> [] -> exists m, qmean l = Some m /\ is_mean l m.
Proof. destruct l as [|x l]; [done|]. intros _. exists (mean_of (x :: l)). split; [done|]. by apply mean_of_spec. Qed.

(** ** Histories *)
Lemma history_reach e x y s b t ct f : tile_history e x y s b t ct f -> tile_reach true e x y s b t.
Proof.
  induction 1.
  - apply TR_new.
  - by apply TR_add.
  - by apply TR_remove.
  - by eapply TR_grid.
  - by eapply TR_query.
  - by apply TR_reload.
Qed.
Lemma rep_same t t' ct :
  tile_rep t ct -> t_data t' = t_data t -> t_container t' = t_container t -> tile_rep t' ct.
Proof.
  intros [R1 R2 R3 R4] Hd Hc. split; [done| | |].
  - unfold pts. rewrite Hd. exact R2.
  - rewrite Hd. exact R3.
  - by rewrite Hc.
Qed.
Lemma history_rep e x y s b t ct f :
  0 < s -> tile_history e x y s b t ct f -> tile_rep t ct /\ t_changed t = f.
Proof.
  intros Hs. induction 1 as [|t ct f d c H [HR Hf] Hd|t ct f c H [HR Hf]|
    t ct f alg ro clear mode gp border t' r H [HR Hf] HA HC Hg|t ct f layer ro nodata up t' o H [HR Hf] Hg|t ct f m H [HR Hf]].
  - split; [apply new_tile_rep|done].
  - split; [by apply tile_rep_add|]. by destruct (add_fields t d c ct HR) as [_ ?].
  - split; [by apply tile_rep_remove|]. rewrite (remove_changed t c ct HR), Hf.
    case_bool_decide; [by rewrite orb_true_r|by rewrite orb_false_r].
  - destruct (reach_grid _ _ _ _ _ _ _ _ _ _ _ _ _ _ _ Hs (history_reach _ _ _ _ _ _ _ _ H) HA HC Hg)
      as (_ & _ & _ & _ & _ & _ & l' & HT).
    split; [|apply HT]. eapply rep_same; [exact HR|apply HT|apply HT].
  - destruct (reach_good _ _ _ _ _ _ _ Hs (history_reach _ _ _ _ _ _ _ _ H)) as (HG & _ & _).
    destruct (good_query _ _ _ _ _ _ _ _ HG Hg) as (_ & _ & H3 & H4 & H5 & _).
    split; [by eapply rep_same|congruence].
  - destruct (reload_fields m t) as (_ & H1 & H2 & H3 & _). split; [by eapply rep_same|congruence].
Qed.
Lemma ops_rep ops x y s b :
  tile_rep (foldl run_tile_op (new_tile x y s b) ops) (foldl held_op [] ops).
Proof.
  induction ops as [|o ops IH] using rev_ind; [apply new_tile_rep|]. rewrite !foldl_app. cbn.
  destruct o; [by apply tile_rep_add|by apply tile_rep_remove].
Qed.
Lemma range_slices ct c d : NoDup ct.*1 -> (c, d) ∈ ct ->
  exists a b, dget (ranges 0 ct) c = Some (a, b) /\ slice (all_points ct) a b = d.
Proof.
  intros Hnd Hin. assert (Hc : c ∈ ct.*1) by (apply elem_of_list_fmap; by exists (c, d)).
  destruct (content_split ct c Hc Hnd) as (l1 & d' & l3 & Hct & Ha & Hb).
  assert (d' = d) as ->.
  { assert (H1 : dget ct c = Some d) by (by apply dget_elem_NoDup).
    assert (H2 : dget ct c = Some d').
    { apply dget_elem_NoDup; [done|]. rewrite Hct. apply elem_of_app. right. left. }
    congruence. }
  exists (length (all_points l1)), (length (all_points l1) + length d)%nat.
  rewrite Hct, all_points_app. change (all_points ((c, d) :: l3)) with (d ++ all_points l3).
  split; [|apply slice_mid]. rewrite ranges_app, dget_app.
  assert (Hn : dget (ranges 0 l1) c = None) by (apply dget_None; by rewrite ranges_keys).
  rewrite Hn. cbn [ranges dget]. by rewrite decide_True.
Qed.
