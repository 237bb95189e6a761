(** Tiles stay well formed; what t_grid returns. *)
From Coq Require Import Lqa.
From Verif Require Import Py Nd Numpy Point Bin Algorithms Tile Spec
  PyFacts NdFacts NumpyFacts AlgFacts BinFacts TileFacts TileGridFacts TileSpecFacts.
Open Scope Z_scope.
Ltac Zify.zify_post_hook ::= Z.div_mod_to_equations.
Implicit Types ct : content.

Lemma slopes_not_std e dk alg name :
  (dk = "depth" \/ dk = "intensity") -> name ∈ alg_keys e dk alg -> name <> "x_slope" /\ name <> "y_slope".
Proof.
  intros Hdk Hn%alg_keys_std.
  assert (H1 : "x_slope" ∉ dk :: "density" :: unc_layers.*1).
  { destruct Hdk as [->| ->]; apply (bool_decide_unpack _); vm_compute; exact I. }
  assert (H2 : "y_slope" ∉ dk :: "density" :: unc_layers.*1).
  { destruct Hdk as [->| ->]; apply (bool_decide_unpack _); vm_compute; exact I. }
  split; intros ->; contradiction.
Qed.

Lemma dget_clear_temp_layers l name :
  dget (clear_temp_layers l) name = if decide (name = "y_slope") then None
                                    else if decide (name = "x_slope") then None else dget l name.
Proof. unfold clear_temp_layers. by rewrite !dget_ddel. Qed.

Lemma layers_ok_clear e t r alg l : layers_ok e t r alg l -> layers_ok e t r alg (clear_temp_layers l).
Proof.
  intros [H1 H2]. split.
  - intros name Hn. destruct (slopes_not_std _ _ _ _ (depth_key_cases t) Hn) as [Hx Hy].
    rewrite dget_clear_temp_layers. rewrite !decide_False by done. by apply H1.
  - intros name a. rewrite dget_clear_temp_layers.
    destruct (decide _); [done|]. destruct (decide _); [done|]. apply H2.
Qed.
Lemma layers_ok_frame e t t' r alg l : same_frame t t' -> layers_ok e t r alg l -> layers_ok e t' r alg l.
Proof.
  intros (H1 & H2 & H3 & H4) [Ha Hb]. split.
  - unfold t_depth_key. rewrite H4. apply Ha.
  - unfold ncell. rewrite H3. apply Hb.
Qed.

Lemma layers_ok_clear_cells e t alg cells rs r l' :
  dget (clear_temp_cells cells rs) r = Some l' ->
  exists l, dget cells r = Some l /\ (layers_ok e t r alg l -> layers_ok e t r alg l').
Proof.
  rewrite dget_clear_temp_cells. intros (l & Hl & ->)%fmap_Some. exists l. split; [done|]. clear Hl.
  revert l. induction rs as [|r' rs IH]; intros l Hok; [done|]. cbn [foldl]. apply IH.
  destruct (decide (r = r')); [by apply layers_ok_clear|done].
Qed.

Lemma dget_clear_temp_cells_std cells rs r l name :
  dget cells r = Some l -> name <> "x_slope" -> name <> "y_slope" ->
  exists l', dget (clear_temp_cells cells rs) r = Some l' /\ dget l' name = dget l name.
Proof.
  intros Hl Hx Hy. rewrite dget_clear_temp_cells, Hl. eexists. split; [reflexivity|]. clear Hl.
  revert l. induction rs as [|r' rs IH]; intros l; [done|]. cbn [foldl]. rewrite IH.
  destruct (decide (r = r')); [|done]. rewrite dget_clear_temp_layers. by rewrite !decide_False.
Qed.

(** Changing points, keeping grids. *)
Lemma good_cells_kept e t t' :
  good e t -> same_frame t t' ->
  t_cells t' = t_cells t \/ t_cells t' = clear_temp_cells (t_cells t) (dkeys (t_indices t)) ->
  dkeys (t_indices t') = dkeys (t_indices t) -> t_edges_x t' = t_edges_x t -> t_edges_y t' = t_edges_y t ->
  t_algorithm t' = t_algorithm t ->
  forall r l, dget (t_cells t') r = Some l ->
    0 < r /\ is_Some (dget (t_indices t') r) /\
    dget (t_edges_x t') r = Some (tile_edges (t_min_x t') r (ncell t' r)) /\
    dget (t_edges_y t') r = Some (tile_edges (t_min_y t') r (ncell t' r)) /\
    exists alg, t_algorithm t' = Some alg /\ known_alg alg /\ layers_ok e t' r alg l.
Proof.
  intros HG Hf Hc Hi Hx Hy Ha r l Hl.
  assert (Hn : ncell t' r = ncell t r) by (unfold ncell; by destruct Hf as (_ & _ & -> & _)).
  assert (H : exists l0, dget (t_cells t) r = Some l0 /\
             (forall alg, layers_ok e t r alg l0 -> layers_ok e t r alg l)).
  { destruct Hc as [Hc|Hc]; rewrite Hc in Hl; [eauto|]. pose proof Hl as Hl'.
    rewrite dget_clear_temp_cells in Hl'. apply fmap_Some in Hl' as (l0 & Hl0 & Heq).
    exists l0. split; [done|]. intros alg.
    destruct (layers_ok_clear_cells e t alg _ _ _ _ Hl) as (l1 & Hl1 & Hok). by simplify_eq. }
  destruct H as (l0 & Hl0 & Hok).
  destruct (g_cells _ _ HG r l0 Hl0) as (H1 & H2 & H3 & H4 & alg & H5 & H6 & H7).
  destruct Hf as (F1 & F2 & F3 & F4).
  split; [done|]. rewrite Hx, Hy, Hn, F1, F2. rewrite dget_is_Some, Hi, <- dget_is_Some.
  split; [done|]. split; [done|]. split; [done|]. exists alg. rewrite Ha. split; [done|]. split; [done|].
  apply (layers_ok_frame e t); [done|]. by apply Hok.
Qed.

Lemma in_tile_frame t t' p : same_frame t t' -> in_tile t p -> in_tile t' p.
Proof. intros (H1 & H2 & H3 & _). unfold in_tile. by rewrite H1, H2, H3. Qed.

Lemma remove_fields t c ct :
  tile_rep t ct ->
  let t' := t_remove_points t c in
  (t_cells t' = t_cells t \/ t_cells t' = clear_temp_cells (t_cells t) (dkeys (t_indices t))) /\
  dkeys (t_indices t') = dkeys (t_indices t) /\ t_edges_x t' = t_edges_x t /\ t_edges_y t' = t_edges_y t /\
  t_algorithm t' = t_algorithm t /\ (c ∈ ct.*1 -> t_changed t' = true).
Proof.
  intros HR t'. destruct (decide (c ∈ ct.*1)) as [Hc|Hc].
  - destruct (content_split ct c Hc (tr_nodup _ _ HR)) as (a & d & b & Hct & Ha & Hb).
    destruct (t_remove_present t c ct a d b HR Hct Ha Hb) as (_ & _ & H3 & H4 & H5 & H6 & H7 & H8 & _).
    unfold t'. rewrite H3, H4, H5, H6, H7, H8. rewrite dkeys_dmapv. auto 10.
  - unfold t'. rewrite (t_remove_absent t c ct) by done. auto 10.
Qed.

Lemma drop_c_Forall (P : point -> Prop) ct c : Forall P (all_points ct) -> Forall P (all_points (drop_c ct c)).
Proof.
  unfold all_points, drop_c. induction ct as [|[c' d] ct IH]; [done|]. rewrite filter_cons. csimpl.
  intros [H1 H2]%Forall_app. destruct (decide _); csimpl; [|by apply IH]. apply Forall_app. auto.
Qed.

Lemma good_remove e t c : good e t -> good e (t_remove_points t c).
Proof.
  intros HG. destruct (g_rep _ _ HG) as [ct HR].
  destruct (remove_fields t c ct HR) as (H1 & H2 & H3 & H4 & H5 & _).
  pose proof (t_remove_frame t c) as Hf. split.
  - exists (drop_c ct c). by apply tile_rep_remove.
  - eapply cache_ok_remove; [done|]. apply HG.
  - destruct Hf as (_ & _ & -> & _). apply HG.
  - rewrite (tr_data _ _ (tile_rep_remove t ct c HR)). apply drop_c_Forall.
    rewrite <- (tr_data _ _ HR). eapply Forall_impl; [apply HG|]. intros p. by apply in_tile_frame.
  - by apply (good_cells_kept e t).
Qed.

Lemma good_add e t d c : good e t -> Forall (in_tile t) d -> good e (t_add_points t d c).
Proof.
  intros HG Hd. destruct (g_rep _ _ HG) as [ct HR].
  pose proof (t_add_frame t d c) as Hf.
  assert (Hfields : exists t1, good e t1 /\ same_frame t1 (t_add_points t d c) /\
     let t' := t_add_points t d c in
     (t_cells t' = t_cells t1 \/ t_cells t' = clear_temp_cells (t_cells t1) (dkeys (t_indices t1))) /\
     dkeys (t_indices t') = dkeys (t_indices t1) /\ t_edges_x t' = t_edges_x t1 /\
     t_edges_y t' = t_edges_y t1 /\ t_algorithm t' = t_algorithm t1).
  { unfold t_add_points. destruct (t_data t) as [dt|].
    - exists (if dmem (t_container t) c then t_remove_points t c else t).
      split; [destruct (dmem _ _); [by apply good_remove|done]|].
      rewrite clear_temp_all_eq. split; [done|]. split; [by right|]. split; [apply dkeys_dmapv|done].
    - exists t. split; [done|]. split; [done|]. split; [by left|]. split; [apply dkeys_dmapv|done]. }
  destruct Hfields as (t1 & HG1 & Hf1 & H1 & H2 & H3 & H4 & H5). split.
  - exists (put_c ct c d). by apply tile_rep_add.
  - eapply cache_ok_add; [done|]. apply HG.
  - destruct Hf as (_ & _ & -> & _). apply HG.
  - rewrite (tr_data _ _ (tile_rep_add t ct d c HR)). unfold put_c. rewrite all_points_app.
    apply Forall_app. split.
    + apply drop_c_Forall. rewrite <- (tr_data _ _ HR). eapply Forall_impl; [apply HG|].
      intros p. by apply in_tile_frame.
    + unfold all_points. csimpl. rewrite app_nil_r. eapply Forall_impl; [done|]. intros p. by apply in_tile_frame.
  - by apply (good_cells_kept e t1).
Qed.

Lemma good_new e x y s b : 0 < s -> good e (new_tile x y s b).
Proof.
  intros Hs. split; try done.
  - exists []. apply new_tile_rep.
  - constructor.
Qed.

Lemma good_clear_temp e t r : good e t -> good e (clear_temp_data t r).
Proof.
  intros HG. split.
  - destruct (g_rep _ _ HG) as [ct [H1 H2 H3 H4]]. exists ct. by split.
  - intros r' idx H. by apply (g_cache _ _ HG r' idx).
  - apply HG.
  - apply HG.
  - intros r' l. cbn. rewrite dget_dmapkv. intros (l0 & Hl0 & ->)%fmap_Some.
    destruct (g_cells _ _ HG r' l0 Hl0) as (H1 & H2 & H3 & H4 & alg & H5 & H6 & H7).
    split; [done|]. split; [done|]. split; [done|]. split; [done|]. exists alg.
    split; [done|]. split; [done|]. destruct (decide _); [by apply layers_ok_clear|done].
Qed.
Lemma good_clear_grid e t : good e t -> good e (clear_grid t).
Proof.
  intros HG. split.
  - destruct (g_rep _ _ HG) as [ct [H1 H2 H3 H4]]. exists ct. by split.
  - intros r' idx H. by apply (g_cache _ _ HG r' idx).
  - apply HG.
  - apply HG.
  - done.
Qed.

(** ** CUBE *)
Definition cube_args (e : env) (t : tile) (r : Z) (gp : option params) (border : option (list point))
    (d : list point) : nat -> nat -> cube_call :=
  let data := d ++ default [] border in
  let opt (f : params -> option string) (dflt : string) := default dflt (p ← gp; f p) in
  fun numrows numcols =>
    CubeCall (map pz data) (map pthu data) (map ptvu data) (map px data) (map py data)
      numcols numrows (t_min_x t) (t_max_y t) (opt p_method "local") (opt p_iho "order1a") r
      (opt p_var "cube").
Definition cube_fresh (e : env) (t : tile) (r : Z) (gp : option params) (border : option (list point))
    (d : list point) : res cubed :=
  let n := ncell t r in
  nb_cube e (cube_args e t r gp border d) (map (cellno t r) d) (nd_full n n None) (nd_full n n zero_cell)
    (nd_full n n None) (nd_full n n zero_cell) (nd_full n n None).
Definition cube_ready (e : env) : Prop :=
  e_cube_enabled e = true /\ has_tvu (e_dt e) = true /\ has_thu (e_dt e) = true.

Lemma place_valid_shape out o g n m : shape_is g n m -> shape_is (place_valid out o g) n m.
Proof. intros (H1 & H2 & H3). unfold place_valid. cbn zeta. rewrite H2, H3. split; [apply nd_init_wf|done]. Qed.
Lemma round3_shape a n m : shape_is a n m -> shape_is (arr_round3 a) n m.
Proof. intros (H1 & H2 & H3). split; [by apply nd_map_wf|done]. Qed.
Lemma written_shape {A} (g b : nd A) idx f n m : shape_is g n m -> written g b idx f -> shape_is b n m.
Proof. intros (H1 & H2 & H3) (H4 & H5 & H6 & _). split; [done|]. split; congruence. Qed.

Lemma cube_fresh_ok e t r gp border d :
  0 < t_size t -> 0 < r -> Forall (in_tile t) d -> e_cube_enabled e = true ->
  exists q, cube_fresh e t r gp border d = Ok q /\ q_density q = density_spec t r d /\
    q_depth q = place_valid (co_depth (e_cube e (cube_args e t r gp border d (ncell t r) (ncell t r))))
                  (co_depth (e_cube e (cube_args e t r gp border d (ncell t r) (ncell t r))))
                  (nd_full (ncell t r) (ncell t r) None) /\
    q_tpu q = place_valid (co_depth (e_cube e (cube_args e t r gp border d (ncell t r) (ncell t r))))
                  (co_unc (e_cube e (cube_args e t r gp border d (ncell t r) (ncell t r))))
                  (nd_full (ncell t r) (ncell t r) None) /\
    q_hyp q = place_valid (co_depth (e_cube e (cube_args e t r gp border d (ncell t r) (ncell t r))))
                  (co_hyp (e_cube e (cube_args e t r gp border d (ncell t r) (ncell t r))))
                  (nd_full (ncell t r) (ncell t r) zero_cell) /\
    q_ratio q = place_valid (co_depth (e_cube e (cube_args e t r gp border d (ncell t r) (ncell t r))))
                  (co_ratio (e_cube e (cube_args e t r gp border d (ncell t r) (ncell t r))))
                  (nd_full (ncell t r) (ncell t r) None).
Proof.
  intros Hs Hr Hd He. unfold cube_fresh, nb_cube. rewrite He. cbn [negb].
  set (n := ncell t r). set (idx := map (cellno t r) d).
  assert (HF : Forall (fun k => 0 <= k < Z.of_nat (n * n)) idx) by (by apply cellno_all).
  assert (HS : sorting_perm idx (argsort idx)) by apply argsort_sorting_perm.
  cbn [nrows ncols nd_full].
  destruct (cell_groups (argsort idx) idx n n) as [g|x] eqn:Hg.
  2: { by rewrite (cell_groups_eq (argsort idx) idx n n HS HF) in Hg. }
  cbn [rbind]. assert (Hn : (0 < n)%nat) by (by apply ncell_pos).
  destruct (nd_size (nd_full n n (None : cell)) =? 0)%nat eqn:E.
  { apply Nat.eqb_eq in E. unfold nd_size in E. cbn in E. rewrite replicate_length in E. nia. }
  eexists. split; [reflexivity|]. cbn [q_density q_depth q_tpu q_hyp q_ratio]. split; [|done].
  apply written_density; [done|done|done|].
  by apply (scatter_counts_written (argsort idx) idx n n HS HF g (nd_full n n zero_cell) Hg (full_shape n zero_cell)).
Qed.

Definition cube_layer (t : tile) (q : cubed) (name : string) : option arr :=
  if decide (name = "hypothesis_ratio") then Some (arr_round3 (q_ratio q))
  else if decide (name = "total_uncertainty") then Some (arr_round3 (q_tpu q))
  else if decide (name = "hypothesis_count") then Some (q_hyp q)
  else if decide (name = "density") then Some (q_density q)
  else if decide (name = t_depth_key t) then Some (arr_round3 (q_depth q)) else None.
Definition simple_layer (e : env) (t : tile) (o : gridded) (name : string) : option arr :=
  if decide (name = t_depth_key t) then Some (arr_round3 (o_depth o))
  else if decide (name = "density") then Some (o_density o)
  else if decide (name = "vertical_uncertainty") then
    if has_tvu (e_dt e) then Some (arr_round3 (o_tvu o)) else None
  else if decide (name = "horizontal_uncertainty") then
    if has_thu (e_dt e) then Some (arr_round3 (o_thu o)) else None
  else None.

(** The layers gridding must produce from the points [d], by layer name. *)
Definition std_layer (e : env) (t : tile) (alg : string) (r : Z) (gp : option params)
    (border : option (list point)) (d : list point) (name : string) : option arr :=
  let simple (a : simple_algorithm) :=
    match fresh_out e t a r d with Ok o => simple_layer e t o name | Raise _ => None end in
  if bool_decide (alg = "mean") then simple Mean
  else if bool_decide (alg = "shoalest") then simple Shoalest
  else match cube_fresh e t r gp border d with Ok q => cube_layer t q name | Raise _ => None end.

Lemma fresh_out_frame e t t' a r d : same_frame t t' -> fresh_out e t' a r d = fresh_out e t a r d.
Proof.
  intros Hf. unfold fresh_out.
  assert (Hn : ncell t' r = ncell t r) by (unfold ncell; by destruct Hf as (_ & _ & -> & _)).
  rewrite Hn. rewrite (map_ext (cellno t' r) (cellno t r)); [done|]. intros p. by apply same_frame_cellno.
Qed.
Lemma std_layer_frame e t t' alg r gp border d name :
  same_frame t t' -> std_layer e t' alg r gp border d name = std_layer e t alg r gp border d name.
Proof.
  intros Hf. unfold std_layer. rewrite !(fresh_out_frame e t t') by done.
  assert (Hn : ncell t' r = ncell t r) by (unfold ncell; by destruct Hf as (_ & _ & -> & _)).
  assert (Hk : t_depth_key t' = t_depth_key t) by (unfold t_depth_key; by destruct Hf as (_ & _ & _ & ->)).
  assert (Hc : cube_fresh e t' r gp border d = cube_fresh e t r gp border d).
  { unfold cube_fresh. rewrite Hn. rewrite (map_ext (cellno t' r) (cellno t r)) by (intros p; by apply same_frame_cellno).
    unfold cube_args, t_max_y. destruct Hf as (-> & -> & -> & _). done. }
  rewrite Hc. unfold simple_layer, cube_layer. by rewrite Hk.
Qed.

Lemma run_cube_ok e t t2 r l2 d gp border :
  good e t -> is_power_of_two (metres e r) = true -> t_data t = Some d -> cube_ready e ->
  prepared e t t2 "cube" r l2 ->
  exists q l', cube_fresh e t r gp border d = Ok q /\
    run_cube_grid e t2 r gp border = Ok (set_layers t2 r l') /\
    forall name, dget l' name = match cube_layer t q name with Some a => Some a | None => dget l2 name end.
Proof.
  intros HG Hp Hd (Hen & Htv & Hth) HP. pose proof (pow2_res_pos _ _ Hp) as Hr.
  pose proof (g_size _ _ HG) as Hs. pose proof (g_in _ _ HG) as Hin.
  assert (Hpts : pts t = d) by (unfold pts; by rewrite Hd). rewrite Hpts in Hin.
  destruct (cube_fresh_ok e t r gp border d Hs Hr Hin Hen) as (q & Hq & _).
  destruct HP as [(Hf & Hd2 & _ & _) Hidx _ _ _ Hcells Hstd Hsh _].
  assert (Hdk : t_depth_key t2 = t_depth_key t).
  { unfold t_depth_key. destruct Hf as (_ & _ & _ & ->). done. }
  assert (Hla : layers_at t2 r = l2) by (unfold layers_at; by rewrite Hcells, dget_dset_eq).
  assert (Hkeys : forall name, name = t_depth_key t \/ name = "density" \/ name = "hypothesis_count" \/
            name = "total_uncertainty" \/ name = "hypothesis_ratio" ->
            dget l2 name = Some (nd_full (ncell t r) (ncell t r) (blank_value name))).
  { intros name Hname. apply Hstd. unfold alg_keys, initial_layers.
    rewrite bool_decide_eq_false_2 by naive_solver. rewrite bool_decide_eq_true_2 by done.
    rewrite !elem_of_dkeys_dset. naive_solver. }
  exists q. unfold run_cube_grid. rewrite Hd2, Hd, Hla, Hidx, dget_dset_eq, Hdk, Hpts, Htv, Hth. cbn [andb negb].
  rewrite (Hkeys "total_uncertainty"), (Hkeys "hypothesis_count"), (Hkeys "hypothesis_ratio"),
    (Hkeys (t_depth_key t)), (Hkeys "density") by tauto. cbn [rofopt rbind].
  assert (Hbv : blank_value (t_depth_key t) = None) by (destruct (depth_key_cases t) as [->| ->]; done).
  rewrite Hbv.
  assert (Hx : t_min_x t2 = t_min_x t) by apply Hf. assert (Hy : t_max_y t2 = t_max_y t).
  { unfold t_max_y. destruct Hf as (_ & -> & -> & _). done. }
  rewrite Hx, Hy.
  unfold cube_fresh, cube_args in Hq. cbv zeta in Hq.
  change (blank_value "density") with zero_cell. change (blank_value "hypothesis_count") with zero_cell.
  change (blank_value "total_uncertainty") with (@None Q). change (blank_value "hypothesis_ratio") with (@None Q).
  rewrite Hq. cbn [rbind]. eexists. split; [exact Hq|]. split; [reflexivity|].
  intros name. rewrite !dget_dset. unfold cube_layer.
  repeat (destruct (decide _); [done|]). done.
Qed.

(** ** t_grid *)
Lemma compat_clear_temp e t alg r : compat e t alg -> compat e (clear_temp_data t r) alg.
Proof. intros [H|H]; [left|right; exact H]. cbn. by rewrite H. Qed.

Lemma run_algorithm_ok e t t2 alg r l2 d gp border :
  good e t -> is_power_of_two (metres e r) = true -> t_data t = Some d -> known_alg alg ->
  (alg = "cube" -> cube_ready e) -> prepared e t t2 alg r l2 ->
  exists l', run_algorithm e t2 alg r gp border = Ok (set_layers t2 r l') /\
    forall name, dget l' name = match std_layer e t alg r gp border d name with
                                | Some a => Some a | None => dget l2 name end.
Proof.
  intros HG Hp Hd HA HQ HP. unfold run_algorithm, std_layer.
  assert (Hsimple : forall a, alg = alg_name a ->
    exists l', run_simple_grid e a t2 r = Ok (set_layers t2 r l') /\
    forall name, dget l' name = match (match fresh_out e t a r d with Ok o => simple_layer e t o name | Raise _ => None end) with
                                | Some a => Some a | None => dget l2 name end).
  { intros a ->. destruct (run_simple_ok e a t t2 r l2 d HG Hp Hd HP) as (o & l' & Ho & Hrun & H1 & H2 & H3 & H4 & H5).
    exists l'. split; [done|]. intros name. rewrite Ho. unfold simple_layer.
    destruct (decide (name = t_depth_key t)) as [->|N1]; [done|].
    destruct (decide (name = "density")) as [->|N2]; [done|].
    destruct (decide (name = "vertical_uncertainty")) as [->|N3].
    { destruct (has_tvu (e_dt e)) eqn:E; [by apply H3|]. by apply H5. }
    destruct (decide (name = "horizontal_uncertainty")) as [->|N4].
    { destruct (has_thu (e_dt e)) eqn:E; [by apply H4|]. by apply H5. }
    by apply H5. }
  destruct (bool_decide (alg = "mean")) eqn:E1.
  { apply bool_decide_eq_true in E1. by apply (Hsimple Mean). }
  destruct (bool_decide (alg = "shoalest")) eqn:E2.
  { apply bool_decide_eq_true in E2. by apply (Hsimple Shoalest). }
  apply bool_decide_eq_false in E1, E2.
  assert (alg = "cube") as -> by (destruct HA as [?|[?|?]]; done).
  rewrite bool_decide_eq_true_2 by done.
  destruct (run_cube_ok e t t2 r l2 d gp border HG Hp Hd (HQ eq_refl) HP) as (q & l' & Hq & Hrun & Hl).
  exists l'. split; [done|]. intros name. by rewrite Hq, Hl.
Qed.

Lemma std_layer_total e t alg r gp border d :
  0 < t_size t -> 0 < r -> Forall (in_tile t) d -> known_alg alg -> (alg = "cube" -> cube_ready e) ->
  (forall name, name ∈ alg_keys e (t_depth_key t) alg <-> is_Some (std_layer e t alg r gp border d name)) /\
  (forall name a, std_layer e t alg r gp border d name = Some a -> shape_is a (ncell t r) (ncell t r)).
Proof.
  intros Hs Hr Hd HA HQ. unfold std_layer.
  assert (Hsimple : forall a,
    (forall name, name ∈ alg_keys e (t_depth_key t) (alg_name a) <->
       is_Some (match fresh_out e t a r d with Ok o => simple_layer e t o name | Raise _ => None end)) /\
    (forall name b, match fresh_out e t a r d with Ok o => simple_layer e t o name | Raise _ => None end = Some b ->
       shape_is b (ncell t r) (ncell t r))).
  { intros a. destruct (fresh_out_ok e t a r d Hs Hr Hd) as [o Ho]. rewrite Ho. split.
    - intros name. unfold alg_keys, initial_layers. rewrite bool_decide_eq_true_2 by (destruct a; auto).
      unfold simple_layer. cbn [andb].
      assert (Hk : name ∈ dkeys (if has_thu (e_dt e) then
           dset (if has_tvu (e_dt e) then dset (dset (dset [] (t_depth_key t) (nd_full 0 0 (None : cell)))
                   "density" (nd_full 0 0 zero_cell)) "vertical_uncertainty" (nd_full 0 0 None)
                 else dset (dset [] (t_depth_key t) (nd_full 0 0 (None : cell))) "density" (nd_full 0 0 zero_cell))
             "horizontal_uncertainty" (nd_full 0 0 None)
           else if has_tvu (e_dt e) then dset (dset (dset [] (t_depth_key t) (nd_full 0 0 (None : cell)))
                   "density" (nd_full 0 0 zero_cell)) "vertical_uncertainty" (nd_full 0 0 None)
                 else dset (dset [] (t_depth_key t) (nd_full 0 0 (None : cell))) "density" (nd_full 0 0 zero_cell)) <->
         name = t_depth_key t \/ name = "density" \/
         (name = "vertical_uncertainty" /\ has_tvu (e_dt e) = true) \/
         (name = "horizontal_uncertainty" /\ has_thu (e_dt e) = true)).
      { destruct (has_tvu (e_dt e)), (has_thu (e_dt e)); rewrite ?elem_of_dkeys_dset, ?dkeys_nil; naive_solver. }
      rewrite Hk. clear Hk.
      destruct (decide (name = t_depth_key t)) as [H1|H1]; [split; [eauto|tauto]|].
      destruct (decide (name = "density")) as [H2|H2]; [split; [eauto|tauto]|].
      destruct (decide (name = "vertical_uncertainty")) as [->|H3].
      { destruct (has_tvu (e_dt e)); split; [eauto|tauto| |intros [? ?]; done]. intros [?|[?|[[_ ?]|[? _]]]]; done. }
      destruct (decide (name = "horizontal_uncertainty")) as [->|H4].
      { destruct (has_thu (e_dt e)); split; [eauto|tauto| |intros [? ?]; done]. intros [?|[?|[[? _]|[_ ?]]]]; done. }
      split; [tauto|intros [? ?]; done].
    - intros name b.
      assert (Hsh : shape_is (o_depth o) (ncell t r) (ncell t r) /\ shape_is (o_density o) (ncell t r) (ncell t r) /\
                (has_tvu (e_dt e) = true -> shape_is (o_tvu o) (ncell t r) (ncell t r)) /\
                (has_thu (e_dt e) = true -> shape_is (o_thu o) (ncell t r) (ncell t r))).
      { revert Ho. unfold fresh_out. destruct a; simpl run_simple.
        - unfold np_grid_mean, np_grid_mean_with. intros (g & Hg & Ho)%rbind_Ok. injection Ho as <-. cbn.
          unfold scatter_mean, scatter_counts.
          split; [apply scatter_shape_is, full_shape|]. split; [apply scatter_shape_is, full_shape|].
          split; intros ->; cbn [opt_vals opt_grid]; destruct (unc_enabled _ _);
            [apply scatter_shape_is|..]; try apply full_shape; apply scatter_shape_is, full_shape.
        - unfold np_grid_shoalest, np_grid_shoalest_with. intros (g & Hg & Ho)%rbind_Ok. cbv beta in Ho.
          apply rbind_Ok in Ho as (tv & Htv & Ho). apply rbind_Ok in Ho as (th & Hth & Ho).
          injection Ho as <-. cbn.
          split; [apply scatter_shape_is, full_shape|]. split; [apply scatter_shape_is, full_shape|].
          assert (Hu : forall u (ug a : arr) dm, (if unc_enabled u ug then scatter_shoalest_unc g (map pz d) dm u ug else Ok ug) = Ok a ->
             shape_is ug (ncell t r) (ncell t r) -> shape_is a (ncell t r) (ncell t r)).
          { intros u ug a dm. destruct (unc_enabled u ug); [|by intros [= ->]].
            unfold scatter_shoalest_unc. intros (v & Hv & Hx)%rbind_Ok Hsh. injection Hx as <-.
            by apply scatter_shape_is. }
          split; intros Hb.
          + eapply Hu; [exact Htv|]. rewrite Hb. apply full_shape.
          + eapply Hu; [exact Hth|]. rewrite Hb. apply full_shape. }
      destruct Hsh as (S1 & S2 & S3 & S4). unfold simple_layer.
      destruct (decide _); [intros [= <-]; by apply round3_shape|].
      destruct (decide _); [by intros [= <-]|].
      destruct (decide _); [destruct (has_tvu (e_dt e)); [intros [= <-]; by apply round3_shape, S3|done]|].
      destruct (decide _); [destruct (has_thu (e_dt e)); [intros [= <-]; by apply round3_shape, S4|done]|]. done. }
  destruct HA as [->|[->| ->]].
  - rewrite bool_decide_eq_true_2 by done. apply (Hsimple Mean).
  - rewrite bool_decide_eq_false_2 by done. rewrite bool_decide_eq_true_2 by done. apply (Hsimple Shoalest).
  - rewrite !bool_decide_eq_false_2 by done. destruct (HQ eq_refl) as (Hen & _).
    destruct (cube_fresh_ok e t r gp border d Hs Hr Hd Hen) as (q & -> & Q1 & Q2 & Q3 & Q4 & Q5). split.
    + intros name. unfold alg_keys, initial_layers. rewrite bool_decide_eq_false_2 by naive_solver.
      rewrite bool_decide_eq_true_2 by done. rewrite !elem_of_dkeys_dset, dkeys_nil. unfold cube_layer.
      repeat (destruct (decide _); [split; [eauto|tauto]|]).
      split; [tauto|intros [? ?]; done].
    + intros name b. unfold cube_layer.
      destruct (decide _); [intros [= <-]; apply round3_shape; rewrite Q5; apply place_valid_shape, full_shape|].
      destruct (decide _); [intros [= <-]; apply round3_shape; rewrite Q3; apply place_valid_shape, full_shape|].
      destruct (decide _); [intros [= <-]; rewrite Q4; apply place_valid_shape, full_shape|].
      destruct (decide _); [intros [= <-]; rewrite Q1; split; [apply nd_init_wf|done]|].
      destruct (decide _); [intros [= <-]; apply round3_shape; rewrite Q2; apply place_valid_shape, full_shape|].
      done.
Qed.

Lemma Forall2_map_diag {A B} (R : A -> B -> Prop) (f : A -> B) l : (forall x, R x (f x)) -> Forall2 R l (map f l).
Proof. intros H. induction l; simpl; constructor; auto. Qed.

Record gridded_tile (e : env) (t t' : tile) (alg : string) (r : Z) (clear : bool) (gp : option params)
    (border : option (list point)) (l' : dict string arr) : Prop := {
  gt_good : good e t';
  gt_frame : same_frame t t';
  gt_data : t_data t' = t_data t;
  gt_cont : t_container t' = t_container t;
  gt_changed : t_changed t' = false;
  gt_alg : t_algorithm t' = Some alg;
  gt_cells : t_cells t' = dset (if clear then [] else t_cells (clear_temp_data t r)) r l';
  gt_std : forall name, name ∈ alg_keys e (t_depth_key t) alg ->
     dget l' name = std_layer e t alg r gp border (pts t) name;
  gt_keys : forall name, is_Some (dget l' name) ->
     name ∈ alg_keys e (t_depth_key t) alg \/
     (clear = false /\ is_Some (dget (layers_at (clear_temp_data t r) r) name));
  gt_idx : t_indices t' = dset (t_indices t) r (map (cellno t r) (pts t)) }.

Lemma t_grid_ok e t alg ro r clear mode gp border d :
  good e t -> choose_resolution e t ro mode = Ok r -> is_power_of_two (metres e r) = true -> known_alg alg ->
  t_data t = Some d -> (clear = true \/ compat e t alg) -> (alg = "cube" -> cube_ready e) ->
  exists t' l', t_grid e t alg ro clear mode gp border = Ok (t', r) /\
    gridded_tile e t t' alg r clear gp border l'.
Proof.
  intros HG Hro Hp HA Hd HC HQ. pose proof (pow2_res_pos _ _ Hp) as Hr.
  unfold t_grid. rewrite Hro. cbn [rbind]. rewrite Hp. cbn [negb].
  set (t0 := if clear then clear_grid t else t). set (t1 := clear_temp_data t0 r).
  assert (HG0 : good e t0) by (unfold t0; destruct clear; [by apply good_clear_grid|done]).
  assert (HG1 : good e t1) by (by apply good_clear_temp).
  assert (Hf1 : same_frame t t1) by (unfold t1, t0; by destruct clear).
  assert (Hd1 : t_data t1 = Some d) by (unfold t1, t0; by destruct clear).
  assert (Hp1 : pts t1 = pts t) by (unfold pts; by rewrite Hd1, Hd).
  assert (Hpd : pts t = d) by (unfold pts; by rewrite Hd).
  assert (HC1 : compat e t1 alg).
  { unfold t1, t0. destruct clear; [by left|]. destruct HC as [|HC]; [done|]. by apply compat_clear_temp. }
  assert (Hcells1 : t_cells t1 = if clear then [] else t_cells (clear_temp_data t r))
    by (unfold t1, t0; by destruct clear).
  assert (Hcont : t_container t1 = t_container t) by (unfold t1, t0; by destruct clear).
  destruct (prepare_ok e t1 alg r gp d HG1 Hp HC1 HA Hd1) as (t2 & l2 & Hprep & HP).
  rewrite Hprep. cbn [rbind].
  destruct (run_algorithm_ok e t1 t2 alg r l2 d gp border HG1 Hp Hd1 HA HQ HP) as (l' & Hrun & Hl).
  rewrite Hrun. cbn [rbind]. eexists _, l'. split; [reflexivity|].
  destruct HP as [(Hf & Hd2 & Hc2 & _) Hidx Halg Hex Hey Hcells Hstd Hsh Hpk].
  assert (Hf2 : same_frame t t2) by (by etransitivity).
  assert (Hin : Forall (in_tile t1) d) by (rewrite <- Hpd, <- Hp1; apply HG1).
  assert (HinT : Forall (in_tile t) d) by (rewrite <- Hpd; apply HG).
  destruct (std_layer_total e t1 alg r gp border d (g_size _ _ HG1) Hr Hin HA HQ) as [Hkeys Hshape].
  assert (Hdk : forall u, same_frame t u -> t_depth_key u = t_depth_key t).
  { intros u (_ & _ & _ & Hb). unfold t_depth_key. by rewrite Hb. }
  assert (Hkeep : forall k, good e t1 -> dget (t_edges_x t1) k = Some (tile_edges (t_min_x t1) k (ncell t1 k)) ->
      dget (t_edges_x t2) k = Some (tile_edges (t_min_x t1) k (ncell t1 k))).
  { intros k _ Hk. destruct Hex as [->|[-> _]]; [|done]. rewrite dget_dset. by destruct (decide (k = r)) as [->|]. }
  assert (Hkeepy : forall k, good e t1 -> dget (t_edges_y t1) k = Some (tile_edges (t_min_y t1) k (ncell t1 k)) ->
      dget (t_edges_y t2) k = Some (tile_edges (t_min_y t1) k (ncell t1 k))).
  { intros k _ Hk. destruct Hey as [->|[-> _]]; [|done]. rewrite dget_dset. by destruct (decide (k = r)) as [->|]. }
  set (tf := set_layers t2 r l' <| t_changed := false |>).
  assert (Hff : same_frame t1 tf) by exact Hf.
  assert (Hokl : layers_ok e t1 r alg l').
  { split.
    - intros name Hn. rewrite Hl. destruct (proj1 (Hkeys name) Hn) as [a ->]. eauto.
    - intros name a. rewrite Hl. destruct (std_layer e t1 alg r gp border d name) eqn:E.
      + intros [= <-]. by eapply Hshape.
      + apply Hsh. }
  assert (Hcf : t_cells tf = dset (t_cells t1) r l').
  { unfold tf, set_layers. cbn. rewrite Hcells. by rewrite dset_dset. }
  split.
  - split.
    + destruct (g_rep _ _ HG1) as [ct [R1 R2 R3 R4]]. exists ct. split.
      * done.
      * unfold pts. cbn. rewrite Hd2. exact R2.
      * cbn. rewrite Hd2. exact R3.
      * cbn. by rewrite Hc2.
    + intros k idx. cbn. rewrite Hidx, dget_dset. unfold pts. cbn. rewrite Hd2. cbn.
      change (default [] (t_data t1)) with (pts t1).
      destruct (decide (k = r)) as [->|].
      * intros [= <-]. apply Forall2_map_diag. intros p. right. symmetry. apply (same_frame_cellno t1 tf r p Hff).
      * intros Hk. eapply Forall2_impl; [by apply (g_cache _ _ HG1 k)|]. intros p i Hpi.
        change (i = -1 \/ i = cellno tf k p). by rewrite (same_frame_cellno t1 tf k p Hff).
    + destruct Hff as (_ & _ & -> & _). apply HG1.
    + unfold pts. cbn. rewrite Hd2. eapply Forall_impl; [apply (g_in _ _ HG1)|]. intros p.
      by apply (in_tile_frame t1 tf).
    + intros k l. rewrite Hcf, dget_dset.
      assert (Hn : forall k, ncell tf k = ncell t1 k) by (intros; unfold ncell; by destruct Hff as (_ & _ & -> & _)).
      rewrite Hn. destruct Hff as (F1 & F2 & F3 & F4). rewrite F1, F2.
      change (t_edges_x tf) with (t_edges_x t2). change (t_edges_y tf) with (t_edges_y t2).
      change (t_indices tf) with (t_indices t2). change (t_algorithm tf) with (t_algorithm t2).
      rewrite Hidx, Halg.
      destruct (decide (k = r)) as [->|Hne].
      * intros [= <-]. split; [done|]. split; [rewrite dget_dset_eq; eauto|].
        split; [destruct Hex as [->|[-> ?]]; [by rewrite dget_dset_eq|done]|].
        split; [destruct Hey as [->|[-> ?]]; [by rewrite dget_dset_eq|done]|].
        exists alg. split; [done|]. split; [done|]. by apply (layers_ok_frame e t1).
      * intros Hl0. destruct (g_cells _ _ HG1 k l Hl0) as (G1 & G2 & G3 & G4 & alg0 & G5 & G6 & G7).
        split; [done|]. split; [by rewrite dget_dset_ne|]. split; [by apply Hkeep|]. split; [by apply Hkeepy|].
        exists alg. split; [done|]. split; [done|]. apply (layers_ok_frame e t1); [done|].
        destruct HC1 as [HC1|(alg1 & HC1 & Hkk)]; [by rewrite HC1 in Hl0|].
        assert (alg1 = alg0) as -> by congruence.
        destruct G7 as [G7 G8]. split; [|done]. intros name Hname. apply G7. by rewrite Hkk.
  - exact Hf2.
  - cbn. by rewrite Hd2, Hd1.
  - cbn. by rewrite Hc2.
  - done.
  - done.
  - fold tf. by rewrite Hcf, Hcells1.
  - intros name Hname. rewrite Hl. rewrite Hpd, <- (std_layer_frame e t t1) by done.
    rewrite <- (Hdk t1 Hf1) in Hname. apply Hkeys in Hname as [a Ha]. by rewrite Ha.
  - intros name. rewrite Hl. rewrite <- (Hdk t1 Hf1).
    destruct (std_layer e t1 alg r gp border d name) eqn:E.
    { intros _. left. apply Hkeys. eauto. }
    intros Hs. apply Hpk in Hs as [Hs|Hs]; [by left|]. right. unfold layers_at in Hs. rewrite Hcells1 in Hs.
    destruct clear; [by destruct Hs|]. done.
  - change (t_indices t2 = dset (t_indices t) r (map (cellno t r) (pts t))). rewrite Hidx, Hp1.
    rewrite (map_ext (cellno t1 r) (cellno t r)) by (intros; by apply same_frame_cellno).
    f_equal. unfold t1, t0. by destruct clear.
Qed.
