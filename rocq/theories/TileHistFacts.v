(** Facts about every reachable tile. *)
From Coq Require Import Lqa.
From Verif Require Import Py Nd Numpy Point Bin Algorithms Tile Disk Spec TileExec
  PyFacts NdFacts NumpyFacts AlgFacts BinFacts TileFacts TileGridFacts TileSpecFacts TileRunFacts.
Open Scope Z_scope.
Ltac Zify.zify_post_hook ::= Z.div_mod_to_equations.
Implicit Types ct : content.

Lemma known_elem alg : alg ∈ ["mean"; "shoalest"; "cube"] <-> known_alg alg.
Proof. unfold known_alg. rewrite !elem_of_cons, elem_of_nil. naive_solver. Qed.

Lemma alg_keys_kind e dk a b : known_alg a -> known_alg b -> (a = "cube" <-> b = "cube") -> alg_keys e dk a = alg_keys e dk b.
Proof.
  intros HA HB H.
  destruct HA as [->|[->| ->]], HB as [->|[->| ->]]; try done; exfalso; destruct H as [H1 H2];
    try (by specialize (H1 eq_refl)); by specialize (H2 eq_refl).
Qed.

Lemma compat_kind e t alg : good e t -> known_alg alg -> same_kind (t_algorithm t) alg -> compat e t alg.
Proof.
  intros HG HA HK. destruct (t_cells t) as [|[r l] cs] eqn:Hc; [by left|]. right.
  assert (Hl : dget (t_cells t) r = Some l) by (rewrite Hc; simpl; by rewrite decide_True).
  destruct (g_cells _ _ HG r l Hl) as (_ & _ & _ & _ & a0 & Ha0 & Hk & _).
  exists a0. split; [done|]. rewrite Ha0 in HK. by apply alg_keys_kind.
Qed.

(** A successful t_grid had everything it needs. *)
Lemma t_grid_inv e t alg ro clear mode gp border t' r :
  known_alg alg -> t_grid e t alg ro clear mode gp border = Ok (t', r) ->
  choose_resolution e t ro mode = Ok r /\ is_power_of_two (metres e r) = true /\
  (exists d, t_data t = Some d) /\ (alg = "cube" -> cube_ready e).
Proof.
  intros HA. unfold t_grid. intros (r' & Hr & H)%rbind_Ok.
  destruct (negb (is_power_of_two (metres e r'))) eqn:E; [done|]. apply negb_false_iff in E.
  apply rbind_Ok in H as (t2 & H2 & H). apply rbind_Ok in H as (t3 & H3 & H). injection H as <- <-.
  split; [done|]. split; [done|].
  set (t1 := clear_temp_data (if clear then clear_grid t else t) r') in *.
  assert (Hd1 : t_data t1 = t_data t) by (unfold t1; by destruct clear).
  assert (Hd : exists d, t_data t = Some d).
  { revert H2. unfold prepare_grid. intros (t4 & H4 & H2)%rbind_Ok.
    assert (Hd4 : t_data t4 = t_data t1).
    { destruct (_ || _) in H4; [|by injection H4 as <-]. unfold new_grid in H4.
      destruct (negb _) in H4; [done|]. apply rbind_Ok in H4 as (ex & Hex & H4).
      apply rbind_Ok in H4 as (ey & Hey & H4). injection H4 as <-. done. }
    apply rbind_Ok in H2 as (ex & Hex & H2). apply rbind_Ok in H2 as (ey & Hey & H2).
    apply rbind_Ok in H2 as (d & Hd & H2). rewrite Hd4, Hd1 in Hd.
    destruct (t_data t); [eauto|done]. }
  split; [done|]. intros ->. unfold run_algorithm in H3.
  rewrite !bool_decide_eq_false_2 in H3 by done. rewrite bool_decide_eq_true_2 in H3 by done.
  revert H3. unfold run_cube_grid. destruct (t_data t2); [|done].
  destruct (negb (has_tvu (e_dt e) && has_thu (e_dt e))) eqn:E2; [done|].
  apply negb_false_iff, andb_true_iff in E2 as [E2 E3].
  intros (a1 & _ & H3)%rbind_Ok. apply rbind_Ok in H3 as (a2 & _ & H3). apply rbind_Ok in H3 as (a3 & _ & H3).
  apply rbind_Ok in H3 as (a4 & _ & H3). apply rbind_Ok in H3 as (a5 & _ & H3).
  apply rbind_Ok in H3 as (a6 & _ & H3). apply rbind_Ok in H3 as (a7 & H7 & H3).
  unfold nb_cube in H7. destruct (e_cube_enabled e) eqn:E4; [|done]. done.
Qed.

Lemma t_grid_inv_ok e t alg ro clear mode gp border t' r :
  good e t -> known_alg alg -> (clear = true \/ compat e t alg) ->
  t_grid e t alg ro clear mode gp border = Ok (t', r) ->
  exists l', gridded_tile e t t' alg r clear gp border l' /\ is_power_of_two (metres e r) = true.
Proof.
  intros HG HA HC H. destruct (t_grid_inv _ _ _ _ _ _ _ _ _ _ HA H) as (H1 & H2 & (d & H3) & H4).
  destruct (t_grid_ok e t alg ro r clear mode gp border d HG H1 H2 HA H3 HC H4) as (t2 & l' & Heq & HT).
  rewrite Heq in H. injection H as <-. eauto.
Qed.

(** ** Queries *)
Lemma good_set_layers e t r l0 l' :
  good e t -> dget (t_cells t) r = Some l0 ->
  (forall name, is_Some (dget l0 name) -> is_Some (dget l' name)) ->
  (forall name a, dget l' name = Some a -> shape_is a (ncell t r) (ncell t r)) ->
  good e (set_layers t r l').
Proof.
  intros HG Hl0 H1 H2. split.
  - destruct (g_rep _ _ HG) as [ct [R1 R2 R3 R4]]. exists ct. by split.
  - intros k idx H. by apply (g_cache _ _ HG k idx).
  - apply HG.
  - apply HG.
  - intros k l. unfold set_layers. cbn. rewrite dget_dset. destruct (decide (k = r)) as [->|].
    + intros [= <-]. destruct (g_cells _ _ HG r l0 Hl0) as (G1 & G2 & G3 & G4 & alg & G5 & G6 & G7).
      split; [done|]. split; [done|]. split; [done|]. split; [done|]. exists alg. split; [done|]. split; [done|].
      split; [|exact H2]. intros name Hn. apply H1. by apply G7.
    + intros Hk. apply (g_cells _ _ HG k l Hk).
Qed.

Lemma layers_at_get t r l : dget (t_cells t) r = Some l -> layers_at t r = l.
Proof. unfold layers_at. by intros ->. Qed.

Lemma container_out_shape e a t r d idx dg ng o n :
  run_simple a d idx dg ng [] [] empty_arr empty_arr = Ok o ->
  shape_is dg n n -> shape_is ng n n -> good e t -> 0 < r ->
  shape_is (o_depth o) n n /\ shape_is (o_density o) n n.
Proof.
  intros Ho Hdg Hng HG Hr. destruct a; cbn in Ho.
  - unfold np_grid_mean, np_grid_mean_with in Ho. apply rbind_Ok in Ho as (g & _ & Ho). injection Ho as <-. cbn.
    split; by apply scatter_shape_is.
  - unfold np_grid_shoalest, np_grid_shoalest_with in Ho. apply rbind_Ok in Ho as (g & _ & Ho). cbn in Ho.
    injection Ho as <-. cbn. split; by apply scatter_shape_is.
Qed.

Lemma dset2_keys (l : dict string arr) k1 v1 k2 v2 name :
  is_Some (dget l name) -> is_Some (dget (dset (dset l k1 v1) k2 v2) name).
Proof.
  intros H. rewrite !dget_dset. destruct (decide _); [eauto|]. destruct (decide _); [eauto|done].
Qed.
Lemma dset2_shape (l : dict string arr) k1 v1 k2 v2 n :
  (forall name a, dget l name = Some a -> shape_is a n n) -> shape_is v1 n n -> shape_is v2 n n ->
  forall name a, dget (dset (dset l k1 v1) k2 v2) name = Some a -> shape_is a n n.
Proof.
  intros Hl H1 H2 name a. rewrite !dget_dset. destruct (decide _); [by intros [= <-]|].
  destruct (decide _); [by intros [= <-]|]. apply Hl.
Qed.

Lemma good_container_query e a t r c t' :
  good e t -> is_Some (dget (t_cells t) r) -> run_simple_container a t r c = Ok t' ->
  good e t' /\ exists l', t' = set_layers t r l'.
Proof.
  intros HG [l Hl]. unfold run_simple_container. destruct (t_data t) as [d|]; [|done].
  rewrite (layers_at_get t r l Hl).
  intros (se & Hse & H)%rbind_Ok. apply rbind_Ok in H as (dg & Hdg & H).
  apply rbind_Ok in H as (idx & Hidx & H). apply rbind_Ok in H as (o & Ho & H). injection H as <-.
  destruct (g_cells _ _ HG r l Hl) as (G1 & G2 & G3 & G4 & alg & G5 & G6 & G7 & G8).
  assert (Hsh : shape_is dg (ncell t r) (ncell t r)).
  { destruct (dget l (t_depth_key t)) eqn:E; [|done]. injection Hdg as <-. by eapply G8. }
  destruct (container_out_shape e _ t r _ _ _ _ _ (ncell t r) Ho) as [S1 S2]; [| |done|done|].
  { rewrite (blank_shape _ _ _ _ Hsh). apply full_shape. }
  { rewrite (blank_shape _ _ _ _ Hsh). apply full_shape. }
  split; [|eauto]. apply (good_set_layers e t r l); [done|done| |].
  - intros name Hn. by apply dset2_keys.
  - apply dset2_shape; [done|by apply round3_shape|done].
Qed.

Lemma tile_edges_length lo r n : length (tile_edges lo r n) = S n.
Proof. apply uniform_length. Qed.

Lemma calculate_slopes_shape e xyz idx ex ey s n :
  calculate_slopes e xyz idx ex ey = Ok s -> length ex = S n -> length ey = S n ->
  shape_is s.1 n n /\ shape_is s.2 n n.
Proof.
  unfold calculate_slopes, calculate_slopes_with. intros (g & _ & H)%rbind_Ok Hx Hy. injection H as <-.
  rewrite Hx, Hy. replace (S n - 1)%nat with n by lia. cbn.
  split; apply scatter_shape_is, full_shape.
Qed.

Lemma good_slopes e t r t' :
  good e t -> is_Some (dget (t_cells t) r) -> run_slopes e t r = Ok t' ->
  good e t' /\ exists l', t' = set_layers t r l' \/ t' = t.
Proof.
  intros HG [l Hl]. unfold run_slopes. rewrite (layers_at_get t r l Hl).
  destruct (dmem l "x_slope"). { intros [= <-]. split; [done|]. exists []. by right. }
  destruct (g_cells _ _ HG r l Hl) as (G1 & G2 & G3 & G4 & alg & G5 & G6 & G7 & G8).
  intros (d & Hd & H)%rbind_Ok. apply rbind_Ok in H as (idx & Hidx & H).
  rewrite G3, G4 in H. cbn [rofopt rbind] in H. apply rbind_Ok in H as (s & Hs & H). injection H as <-.
  destruct (calculate_slopes_shape _ _ _ _ _ _ (ncell t r) Hs) as [S1 S2]; try apply tile_edges_length.
  split; [|eexists; left; reflexivity]. apply (good_set_layers e t r l); [done|done| |].
  - intros name Hn. by apply dset2_keys.
  - by apply dset2_shape.
Qed.

Lemma good_query e t layer ro nodata up t' o :
  good e t -> t_get_layers_by_name e t layer ro nodata up = Ok (t', o) ->
  good e t' /\ same_frame t t' /\ t_data t' = t_data t /\ t_container t' = t_container t /\
  t_changed t' = t_changed t /\ t_algorithm t' = t_algorithm t.
Proof.
  intros HG. unfold t_get_layers_by_name. destruct (t_is_empty t); [by intros [= <- <-]|].
  intros (mr & Hmr & H)%rbind_Ok. destruct mr as [r|]; [|by injection H as <- <-].
  apply rbind_Ok in H as (t1 & H1 & H). apply rbind_Ok in H as (a & Ha & H). injection H as <- <-.
  assert (Hr : is_Some (dget (t_cells t) r)).
  { destruct ro as [r'|].
    - destruct (dmem (t_cells t) r') eqn:E; rewrite ?E in Hmr; [|done]. injection Hmr as ->.
      by apply dget_is_Some, dmem_true.
    - apply dget_is_Some. destruct (dkeys (t_cells t)) as [|r1 [|]]; try done. injection Hmr as ->. left. }
  assert (Hset : forall l, good e (set_layers t r l) -> good e (set_layers t r l) /\ same_frame t (set_layers t r l) /\
      t_data (set_layers t r l) = t_data t /\ t_container (set_layers t r l) = t_container t /\
      t_changed (set_layers t r l) = t_changed t /\ t_algorithm (set_layers t r l) = t_algorithm t)
    by (intros; split; [done|split; [|done]]; done).
  revert H1. unfold prepare_query.
  destruct (bool_decide (layer ∈ slope_layers)).
  { intros H1. destruct (good_slopes e t r t1 HG Hr H1) as (HG1 & l' & [-> | ->]); [by apply Hset|done]. }
  destruct (is_container_query layer); [|by intros [= <-]].
  destruct (dmem (t_container t) layer).
  - assert (HC : forall a, run_simple_container a t r layer = Ok t1 ->
      good e t1 /\ same_frame t t1 /\ t_data t1 = t_data t /\ t_container t1 = t_container t /\
      t_changed t1 = t_changed t /\ t_algorithm t1 = t_algorithm t).
    { intros a0 H1. destruct (good_container_query e a0 t r layer t1 HG Hr H1) as (HG1 & l' & ->). by apply Hset. }
    destruct (bool_decide (t_algorithm t = Some "mean")); [apply HC|].
    destruct (bool_decide (t_algorithm t = Some "shoalest")); [apply HC|].
    destruct (bool_decide (t_algorithm t = Some "cube")); [by destruct (e_cube_enabled e)|by intros [= <-]].
  - destruct Hr as [l Hl]. rewrite (layers_at_get t r l Hl). intros (dg & Hdg & H1)%rbind_Ok. injection H1 as <-.
    unfold set_layer. rewrite (layers_at_get t r l Hl).
    destruct (g_cells _ _ HG r l Hl) as (G1 & G2 & G3 & G4 & alg & G5 & G6 & G7 & G8).
    assert (Hsh : shape_is dg (ncell t r) (ncell t r)).
    { destruct (dget l (t_depth_key t)) eqn:E; [|done]. injection Hdg as <-. by eapply G8. }
    apply Hset. apply (good_set_layers e t r l); [done|done| |].
    + intros name Hn. rewrite dget_dset. destruct (decide _); eauto.
    + intros name b. rewrite dget_dset. destruct (decide _); [|apply G8].
      intros [= <-]. rewrite (blank_shape _ _ _ _ Hsh). apply full_shape.
Qed.

(** ** Every reachable tile is good *)
Definition at_square (t : tile) (x y s : Z) (b : bool) : Prop :=
  t_min_x t = x /\ t_min_y t = y /\ t_size t = s /\ t_backscatter t = b.
Lemma at_square_frame t t' x y s b : same_frame t t' -> at_square t x y s b -> at_square t' x y s b.
Proof. intros (H1 & H2 & H3 & H4) (A & B & C & D). unfold at_square. by rewrite H1, H2, H3, H4. Qed.

(** No layers besides those of the algorithm. *)
Definition exact_layers (e : env) (t : tile) : Prop :=
  forall r l alg, dget (t_cells t) r = Some l -> t_algorithm t = Some alg ->
    forall name, is_Some (dget l name) -> name ∈ alg_keys e (t_depth_key t) alg.

Lemma exact_kept e t t' :
  exact_layers e t -> same_frame t t' -> t_algorithm t' = t_algorithm t ->
  t_cells t' = t_cells t \/ t_cells t' = clear_temp_cells (t_cells t) (dkeys (t_indices t)) ->
  exact_layers e t'.
Proof.
  intros HX Hf Ha Hc r l alg Hl Halg name Hn. rewrite Ha in Halg.
  assert (Hk : t_depth_key t' = t_depth_key t) by (unfold t_depth_key; by destruct Hf as (_ & _ & _ & ->)).
  rewrite Hk. destruct Hc as [Hc|Hc]; rewrite Hc in Hl; [by eapply HX|].
  rewrite dget_clear_temp_cells in Hl. apply fmap_Some in Hl as (l0 & Hl0 & ->).
  apply (HX r l0 alg Hl0 Halg). clear Hl0 Hc. revert l0 Hn.
  induction (dkeys (t_indices t)) as [|k ks IH]; intros l0; cbn [foldl]; [done|]. intros Hn.
  specialize (IH _ Hn). destruct (decide (r = k)); [|done].
  rewrite dget_clear_temp_layers in IH. destruct (decide _); [by destruct IH|]. destruct (decide _); [by destruct IH|done].
Qed.

Lemma add_fields t d c ct :
  tile_rep t ct ->
  let t' := t_add_points t d c in
  (exists t1, (t1 = t \/ t1 = t_remove_points t c) /\
     (t_cells t' = t_cells t1 \/ t_cells t' = clear_temp_cells (t_cells t1) (dkeys (t_indices t1))) /\
     t_algorithm t' = t_algorithm t1 /\ same_frame t1 t') /\ t_changed t' = true.
Proof.
  intros HR t'. unfold t', t_add_points. destruct (t_data t) as [dt|].
  - split; [|done].
    exists (if dmem (t_container t) c then t_remove_points t c else t).
    split; [destruct (dmem _ _); auto|]. rewrite clear_temp_all_eq. split; [by right|]. done.
  - split; [|done]. exists t. split; [by left|]. split; [by left|]. done.
Qed.

Lemma exact_remove e t c : good e t -> exact_layers e t -> exact_layers e (t_remove_points t c).
Proof.
  intros HG HX. destruct (g_rep _ _ HG) as [ct HR].
  destruct (remove_fields t c ct HR) as (H1 & _ & _ & _ & H5 & _).
  eapply exact_kept; [exact HX|apply t_remove_frame|done|done].
Qed.
Lemma exact_add e t d c : good e t -> exact_layers e t -> exact_layers e (t_add_points t d c).
Proof.
  intros HG HX. destruct (g_rep _ _ HG) as [ct HR].
  destruct (add_fields t d c ct HR) as ((t1 & Ht1 & H1 & H2 & H3) & _).
  eapply exact_kept; [|exact H3|exact H2|exact H1].
  destruct Ht1 as [->| ->]; [done|]. by apply exact_remove.
Qed.
Lemma exact_grid e t t' alg r clear gp border l' :
  good e t -> exact_layers e t -> known_alg alg -> (clear = true \/ compat e t alg) ->
  gridded_tile e t t' alg r clear gp border l' -> exact_layers e t'.
Proof.
  intros HG HX HA HC HT k l alg' Hl Halg name Hn.
  pose proof (gt_alg _ _ _ _ _ _ _ _ _ HT) as Ha. assert (alg' = alg) as -> by congruence.
  assert (Hk : t_depth_key t' = t_depth_key t).
  { unfold t_depth_key. destruct (gt_frame _ _ _ _ _ _ _ _ _ HT) as (_ & _ & _ & ->). done. }
  rewrite Hk. rewrite (gt_cells _ _ _ _ _ _ _ _ _ HT) in Hl.
  assert (Hold : forall k l0 name, dget (t_cells (clear_temp_data t r)) k = Some l0 -> clear = false ->
            is_Some (dget l0 name) -> name ∈ alg_keys e (t_depth_key t) alg).
  { intros k0 l0 nm Hl0 -> Hnm. destruct HC as [|HC]; [done|].
    cbn in Hl0. rewrite dget_dmapkv in Hl0. apply fmap_Some in Hl0 as (l1 & Hl1 & ->).
    destruct HC as [HC|(a0 & Ha0 & Hkk)]; [by rewrite HC in Hl1|]. rewrite <- Hkk.
    apply (HX k0 l1 a0 Hl1 Ha0). destruct (decide (k0 = r)); [|done].
    rewrite dget_clear_temp_layers in Hnm. destruct (decide _); [by destruct Hnm|].
    destruct (decide _); [by destruct Hnm|done]. }
  rewrite dget_dset in Hl. destruct (decide (k = r)) as [->|Hne].
  - injection Hl as <-. apply (gt_keys _ _ _ _ _ _ _ _ _ HT) in Hn as [Hn|[Hcl Hn]]; [done|].
    unfold layers_at in Hn. destruct (dget (t_cells (clear_temp_data t r)) r) as [l0|] eqn:E; [|by destruct Hn].
    by eapply Hold.
  - destruct clear; [done|]. by eapply Hold.
Qed.

(** ** Saving and reading back *)
Lemma dget_stored_part l name :
  dget (stored_part l) name = if decide (name ∈ stored_layers) then dget l name else None.
Proof.
  unfold stored_part. induction stored_layers as [|n ns IH]; [done|]. cbn [omap list_omap].
  destruct (decide (name = n)) as [->|Hne].
  - rewrite decide_True by left. destruct (dget l n) as [a|] eqn:E.
    + cbn [dget]. by rewrite decide_True.
    + rewrite IH. by destruct (decide _).
  - transitivity (if decide (name ∈ ns) then dget l name else None).
    + destruct (dget l n) as [a|]; [|exact IH]. cbn [dget]. rewrite decide_False by done. exact IH.
    + destruct (decide (name ∈ ns)) as [H|H]; [rewrite decide_True by (by right); done|].
      rewrite decide_False; [done|]. intros [?|?]%elem_of_cons; done.
Qed.
Lemma alg_keys_stored e t alg name : known_alg alg -> name ∈ alg_keys e (t_depth_key t) alg -> name ∈ stored_layers.
Proof.
  intros HA Hn. assert (H : Forall (fun n => n ∈ stored_layers) (alg_keys e (t_depth_key t) alg)).
  { unfold alg_keys. destruct (depth_key_cases t) as [->| ->]; destruct HA as [->|[->| ->]]; destruct (e_dt e) as [b1 b2];
      destruct b1, b2; cbn; repeat constructor; apply (bool_decide_unpack _); vm_compute; exact I. }
  by eapply Forall_forall in H.
Qed.
Lemma good_reload e m t : good e t -> good e (t_reload m t).
Proof.
  intros HG. unfold t_reload. destruct (saves_grid m); [|done]. split.
  - destruct (g_rep _ _ HG) as [ct [R1 R2 R3 R4]]. exists ct. by split.
  - intros k idx H. by apply (g_cache _ _ HG k idx).
  - apply HG.
  - apply HG.
  - intros r l Hl. cbn in Hl. rewrite dget_dmapv in Hl. apply fmap_Some in Hl as (l0 & Hl0 & ->).
    destruct (g_cells _ _ HG r l0 Hl0) as (G1 & G2 & G3 & G4 & alg & G5 & G6 & G7 & G8).
    split; [done|]. split; [done|]. split; [done|]. split; [done|]. exists alg. split; [done|]. split; [done|]. split.
    + intros name Hn. change (t_depth_key _) with (t_depth_key t) in Hn. rewrite dget_stored_part.
      rewrite decide_True; [by apply G7|]. by eapply alg_keys_stored.
    + intros name a. rewrite dget_stored_part. destruct (decide _); [|done]. apply G8.
Qed.
Lemma exact_reload e m t : exact_layers e t -> exact_layers e (t_reload m t).
Proof.
  intros HX. unfold t_reload. destruct (saves_grid m); [|done]. intros r l alg Hl Ha name Hn. cbn in Hl.
  rewrite dget_dmapv in Hl. apply fmap_Some in Hl as (l0 & Hl0 & ->). rewrite dget_stored_part in Hn.
  destruct (decide _); [|by destruct Hn]. by eapply (HX r l0).
Qed.
Lemma reload_fields m t :
  same_frame t (t_reload m t) /\ t_data (t_reload m t) = t_data t /\ t_container (t_reload m t) = t_container t /\ t_changed (t_reload m t) = t_changed t /\ t_algorithm (t_reload m t) = t_algorithm t.
Proof. unfold t_reload. by destruct (saves_grid m). Qed.

Lemma reach_good q e x y s b t :
  0 < s -> tile_reach q e x y s b t ->
  good e t /\ at_square t x y s b /\ (q = false -> exact_layers e t).
Proof.
  intros Hs. induction 1 as [|t d c H IH Hd|t c H IH|t alg ro clear mode gp border t' r H IH HA HC Hg|
                             t layer ro nodata up t' o H IH Hq Hg|t m H IH].
  - split; [by apply good_new|]. split; [done|]. intros _ r l alg Hl. done.
  - destruct IH as (HG & HA & HX). split; [|split].
    + apply good_add; [done|]. destruct HA as (A & B & C & D). eapply Forall_impl; [done|].
      intros p. unfold in_tile. by rewrite A, B, C.
    + eapply at_square_frame; [apply t_add_frame|done].
    + intros Hq. apply exact_add; auto.
  - destruct IH as (HG & HA & HX). split; [by apply good_remove|]. split.
    + eapply at_square_frame; [apply t_remove_frame|done].
    + intros Hq. apply exact_remove; auto.
  - destruct IH as (HG & HS & HX). apply known_elem in HA.
    assert (HC' : clear = true \/ compat e t alg) by (destruct HC; [by left|right; by apply compat_kind]).
    destruct (t_grid_inv_ok _ _ _ _ _ _ _ _ _ _ HG HA HC' Hg) as (l' & HT & _).
    split; [apply HT|]. split.
    + eapply at_square_frame; [apply HT|done].
    + intros Hq. eapply exact_grid; [exact HG|by apply HX|done|done|done].
  - destruct IH as (HG & HS & HX). destruct (good_query _ _ _ _ _ _ _ _ HG Hg) as (HG' & Hf & _).
    split; [done|]. split; [by eapply at_square_frame|]. intros ->. done.
  - destruct IH as (HG & HS & HX). split; [by apply good_reload|].
    split; [eapply at_square_frame; [apply reload_fields|done]|]. intros Hq. by apply exact_reload, HX.
Qed.
