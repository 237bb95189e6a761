(** When the layers a grid holds reflect its points. *)
From Verif Require Import Py Nd Numpy Point Bin Algorithms Tile Time Meta Disk Grid GridRun GridQuery GridOps Spec TileExec GridExec.
From Verif Require Import PyFacts NdFacts NumpyFacts BinFacts TileFacts TileGridFacts TileSpecFacts TileRunFacts TileHistFacts TilePropFacts TileQueryFacts.
From Verif Require Import GridBaseFacts GridPlaceFacts GridInvFacts GridRootFacts GridEvolveFacts GridSrFacts GridPropFacts GridHistFacts GridRunFacts GridCleanFacts.
Open Scope Z_scope.

(** The layers the simple algorithms write. *)
Definition plain_names : list string := ["depth"; "intensity"; "density"; "vertical_uncertainty"; "horizontal_uncertainty"].

Lemma suffix_plain c : c +:+ "_density" ∉ plain_names.
Proof.
  assert (H : forall name, name ∈ plain_names -> c +:+ "_density" <> name).
  { intros name Hn H. pose proof (f_equal String.length H) as HL. rewrite str_length_app in HL.
    unfold plain_names in Hn. rewrite !elem_of_cons, elem_of_nil in Hn. destruct Hn as [->|[->|[->|[->|[->|[]]]]]]; cbn in HL; try lia.
    - do 1 (destruct c as [|? c]; [cbn in HL; lia|]). destruct c; [discriminate H|cbn in HL; lia].
    - do 12 (destruct c as [|? c]; [cbn in HL; lia|]). destruct c; [discriminate H|cbn in HL; lia].
    - do 14 (destruct c as [|? c]; [cbn in HL; lia|]). destruct c; [discriminate H|cbn in HL; lia]. }
  intros Hn. by eapply H.
Qed.

Lemma layer_of_set t r l r' name :
  layer_of (set_layers t r l) r' name = if decide (r' = r) then dget l name else layer_of t r' name.
Proof. unfold layer_of, set_layers. cbn. rewrite dget_dset. by destruct (decide _). Qed.
Lemma layer_of_at t r name : layer_of t r name = dget (layers_at t r) name.
Proof. unfold layer_of, layers_at. destruct (dget _ _); done. Qed.

Lemma query_plain e t layer ro nodata up t' o r name :
  t_get_layers_by_name e t layer ro nodata up = Ok (t', o) -> name ∈ plain_names -> layer_of t' r name = layer_of t r name.
Proof.
  intros H Hn. revert H. unfold t_get_layers_by_name. destruct (t_is_empty t); [by intros [= <- _]|]. intros (mr & _ & H)%rbind_Ok.
  destruct mr as [r0|]; [|by injection H as <- _]. apply rbind_Ok in H as (t1 & H1 & H).
  apply rbind_Ok in H as (a & _ & H). injection H as <- _.
  assert (Hset : forall l, (forall n, n ∈ plain_names -> dget l n = dget (layers_at t r0) n) -> layer_of (set_layers t r0 l) r name = layer_of t r name).
  { intros l Hl. rewrite layer_of_set. destruct (decide (r = r0)) as [->|]; [|done]. rewrite layer_of_at. by apply Hl. }
  unfold prepare_query in H1. case_bool_decide as Hsl.
  { unfold run_slopes in H1. destruct (dmem _ _); [by injection H1 as <-|].
    apply rbind_Ok in H1 as (? & _ & H1). apply rbind_Ok in H1 as (? & _ & H1). apply rbind_Ok in H1 as (? & _ & H1).
    apply rbind_Ok in H1 as (? & _ & H1). apply rbind_Ok in H1 as (? & _ & H1). injection H1 as <-. apply Hset.
    intros n Hn'. rewrite !dget_dset_ne; [done|..]; intros ->; apply (bool_decide_pack _) in Hn'; vm_compute in Hn'; done. }
  destruct (is_container_query layer) eqn:Hq; [|by injection H1 as <-].
  assert (Hl : forall n, n ∈ plain_names -> n <> layer).
  { intros n Hn' ->. unfold is_container_query in Hq. apply negb_true_iff, bool_decide_eq_false in Hq. apply Hq.
    unfold plain_names in Hn'. rewrite !elem_of_cons, elem_of_nil in Hn'.
    destruct Hn' as [->|[->|[->|[->|[->|[]]]]]]; apply (bool_decide_unpack _); vm_compute; exact I. }
  destruct (dmem (t_container t) layer).
  - assert (HC : forall a, run_simple_container a t r0 layer = Ok t1 -> layer_of t1 r name = layer_of t r name).
    { intros a0. unfold run_simple_container. destruct (t_data t) eqn:E; [|done].
      intros (? & _ & H)%rbind_Ok. apply rbind_Ok in H as (? & _ & H). apply rbind_Ok in H as (? & _ & H).
      apply rbind_Ok in H as (? & _ & H). injection H as <-. apply Hset. intros n Hn'.
      rewrite !dget_dset_ne; [done|by apply Hl|]. intros ->. by apply suffix_plain in Hn'. }
    repeat case_bool_decide; [by eapply HC..|by destruct (e_cube_enabled e)|by injection H1 as <-].
  - apply rbind_Ok in H1 as (? & _ & H1). injection H1 as <-. apply Hset. intros n Hn'. rewrite dget_dset_ne; [done|by apply Hl].
Qed.

Lemma reload_plain m t r name : name ∈ plain_names -> layer_of (t_reload m t) r name = layer_of t r name.
Proof.
  intros Hn. unfold t_reload. destruct (saves_grid m); [|done]. unfold layer_of. cbn. rewrite dget_dmapv.
  destruct (dget (t_cells t) r) as [l|]; [|done]. cbn [fmap option_fmap option_map mbind option_bind]. rewrite dget_stored_part. rewrite decide_True; [done|].
  unfold plain_names in Hn. rewrite !elem_of_cons, elem_of_nil in Hn.
  destruct Hn as [->|[->|[->|[->|[->|[]]]]]]; apply (bool_decide_unpack _); vm_compute; exact I.
Qed.

(** ** Slopes *)
(** The slope layers of the points of the tile; slope layers that the tile has at [r] are these. *)
Definition slopes_of (e : env) (t : tile) (r : Z) : res (arr * arr) :=
  calculate_slopes e (map (fun p => (px p, py p, pz p)) (pts t)) (map (cellno t r) (pts t))
    (tile_edges (t_min_x t) r (ncell t r)) (tile_edges (t_min_y t) r (ncell t r)).
Definition slopes_now (e : env) (r : Z) (t : tile) : Prop :=
  forall sx, layer_of t r "x_slope" = Some sx -> exists sy, layer_of t r "y_slope" = Some sy /\ slopes_of e t r = Ok (sx, sy).
Definition edges_now (r : Z) (t : tile) : Prop :=
  dget (t_edges_x t) r = Some (tile_edges (t_min_x t) r (ncell t r)) /\ dget (t_edges_y t) r = Some (tile_edges (t_min_y t) r (ncell t r)).

Lemma cellno_frame t t' r p : same_frame t t' -> cellno t r p = cellno t' r p.
Proof. intros (F1 & F2 & F3 & _). unfold cellno, ncell. by rewrite F1, F2, F3. Qed.
Lemma slopes_frame e t t' r : same_frame t t' -> pts t' = pts t -> slopes_of e t' r = slopes_of e t r.
Proof.
  intros F Hp. unfold slopes_of. rewrite Hp. assert (E : map (cellno t' r) (pts t) = map (cellno t r) (pts t)).
  { apply map_ext. intros p. symmetry. by apply cellno_frame. } rewrite E. destruct F as (F1 & F2 & F3 & _). unfold ncell. by rewrite F1, F2, F3.
Qed.
Lemma slopes_set e r r0 t l : (forall n, n ∈ slope_layers -> dget l n = dget (layers_at t r0) n) -> slopes_now e r t -> slopes_now e r (set_layers t r0 l).
Proof.
  intros Hl HS sx. assert (E : forall n, n ∈ slope_layers -> layer_of (set_layers t r0 l) r n = layer_of t r n).
  { intros n Hn. rewrite layer_of_set. destruct (decide (r = r0)) as [->|]; [|done]. rewrite layer_of_at. by apply Hl. }
  rewrite !E by (apply (bool_decide_unpack _); vm_compute; exact I). intros (sy & H1 & H2)%HS. exists sy. split; [done|].
  by rewrite (slopes_frame e t (set_layers t r0 l)).
Qed.
Lemma suffix_slope c : c +:+ "_density" ∉ slope_layers.
Proof.
  intros H. unfold slope_layers in H. rewrite !elem_of_cons, elem_of_nil in H.
  destruct H as [H|[H|[]]]; apply (f_equal String.length) in H; rewrite str_length_app in H; cbn in H; lia.
Qed.
Lemma slope_not_key e dk sa : dk = "depth" \/ dk = "intensity" -> "x_slope" ∉ alg_keys e dk (alg_name sa).
Proof.
  unfold alg_keys. destruct (e_dt e) as [b1 b2]. intros [->| ->]; destruct b1, b2, sa; apply (bool_decide_unpack _); vm_compute; exact I.
Qed.
Lemma query_slopes e t layer ro nodata up t' o r : t_get_layers_by_name e t layer ro nodata up = Ok (t', o) ->
  dget (t_indices t) r = Some (map (cellno t r) (pts t)) -> edges_now r t -> slopes_now e r t -> slopes_now e r t'.
Proof.
  intros H Hi [Hx Hy] HS. revert H. unfold t_get_layers_by_name. destruct (t_is_empty t); [by intros [= <- _]|]. intros (mr & _ & H)%rbind_Ok.
  destruct mr as [r0|]; [|by injection H as <- _]. apply rbind_Ok in H as (t1 & H1 & H).
  apply rbind_Ok in H as (a & _ & H). injection H as <- _.
  unfold prepare_query in H1. case_bool_decide as Hsl.
  { unfold run_slopes in H1. destruct (dmem _ _); [by injection H1 as <-|].
    apply rbind_Ok in H1 as (d & Hd & H1). apply rbind_Ok in H1 as (idx & E1 & H1). apply rbind_Ok in H1 as (ex & E2 & H1).
    apply rbind_Ok in H1 as (ey & E3 & H1). apply rbind_Ok in H1 as (s & E4 & H1). injection H1 as <-.
    destruct (decide (r = r0)) as [->|Hr].
    - rewrite Hi in E1. rewrite Hx in E2. rewrite Hy in E3. injection E1 as <-. injection E2 as <-. injection E3 as <-.
      intros sx. rewrite !layer_of_set, decide_True by done. rewrite dget_dset_ne, dget_dset_eq by done. intros [= <-]. exists s.2.
      rewrite decide_True, dget_dset_eq by done. split; [done|]. rewrite (slopes_frame e t (set_layers t r0 _)) by done. unfold slopes_of.
      assert (Ed : pts t = d) by (unfold pts; destruct (t_data t); [by injection Hd as ->|done]). rewrite Ed in *. rewrite E4. by destruct s.
    - intros sx. rewrite !layer_of_set, decide_False by done. intros (sy & S1 & S2)%HS. exists sy. rewrite decide_False by done. split; [done|].
      by rewrite (slopes_frame e t (set_layers t r0 _)). }
  destruct (is_container_query layer) eqn:Hq; [|by injection H1 as <-].
  assert (Hl : forall n, n ∈ slope_layers -> n <> layer).
  { intros n Hn' ->. unfold is_container_query in Hq. apply negb_true_iff, bool_decide_eq_false in Hq. apply Hq. rewrite !elem_of_app. tauto. }
  destruct (dmem (t_container t) layer).
  - assert (HC : forall a, run_simple_container a t r0 layer = Ok t1 -> slopes_now e r t1).
    { intros a0. unfold run_simple_container. destruct (t_data t) eqn:E; [|done].
      intros (? & _ & H)%rbind_Ok. apply rbind_Ok in H as (? & _ & H). apply rbind_Ok in H as (? & _ & H).
      apply rbind_Ok in H as (? & _ & H). injection H as <-. apply slopes_set; [|done]. intros n Hn'.
      rewrite !dget_dset_ne; [done|by apply Hl|]. intros ->. by apply suffix_slope in Hn'. }
    repeat case_bool_decide; [by eapply HC..|by destruct (e_cube_enabled e)|by injection H1 as <-].
  - apply rbind_Ok in H1 as (? & _ & H1). injection H1 as <-. apply slopes_set; [|done]. intros n Hn'. rewrite dget_dset_ne; [done|by apply Hl].
Qed.
Lemma reload_slopes e r m t : slopes_now e r t -> slopes_now e r (t_reload m t).
Proof.
  unfold t_reload. destruct (saves_grid m); [|done]. intros _ sx. unfold layer_of. cbn. rewrite dget_dmapv.
  destruct (dget (t_cells t) r) as [l|]; [|done]. cbn [fmap option_fmap option_map mbind option_bind]. rewrite dget_stored_part.
  rewrite decide_False; [done|]. apply (bool_decide_unpack _). vm_compute. exact I.
Qed.

(** ** The layers of resolution [r] are those of algorithm [sa] and the points of the tile *)
Record current (e : env) (sa : simple_algorithm) (r : Z) (t : tile) : Prop := {
  cu_rez : 0 < r;
  cu_depth : layer_of t r (t_depth_key t) = Some (depth_spec t sa r pz (pts t));
  cu_density : layer_of t r "density" = Some (density_spec t r (pts t));
  cu_unc : exists o, fresh_out e t sa r (pts t) = Ok o /\
    (has_tvu (e_dt e) = true -> layer_of t r "vertical_uncertainty" = Some (arr_round3 (o_tvu o))) /\
    (has_thu (e_dt e) = true -> layer_of t r "horizontal_uncertainty" = Some (arr_round3 (o_thu o)));
  cu_alg : t_algorithm t = Some (alg_name sa);
  cu_idx : dget (t_indices t) r = Some (map (cellno t r) (pts t));
  cu_edges : edges_now r t;
  cu_slope : slopes_now e r t }.

Lemma depth_key_plain t : t_depth_key t ∈ plain_names.
Proof. destruct (depth_key_cases t) as [->| ->]; apply (bool_decide_unpack _); vm_compute; exact I. Qed.
Lemma current_keeps e sa r t t' : tile_keeps t t' -> (forall name, name ∈ plain_names -> layer_of t' r name = layer_of t r name) ->
  t_algorithm t' = t_algorithm t /\ t_indices t' = t_indices t /\ t_edges_x t' = t_edges_x t /\ t_edges_y t' = t_edges_y t ->
  (current e sa r t -> slopes_now e r t') -> current e sa r t -> current e sa r t'.
Proof.
  intros (F & D & _) HL (HA & HI & Hx & Hy) HS HC. specialize (HS HC). destruct HC as [C1 C2 C3 (o & C4 & C5 & C6) C7 C8 [C9 C9'] C10].
  assert (Hk : t_depth_key t' = t_depth_key t) by (unfold t_depth_key; by destruct F as (_ & _ & _ & ->)).
  assert (Hp : pts t' = pts t) by (unfold pts; by rewrite D). split; [done| | | |by rewrite HA| | |done].
  - rewrite Hk, HL by apply depth_key_plain. rewrite C2, Hp. f_equal. symmetry. by apply depth_spec_frame.
  - rewrite HL by (apply (bool_decide_unpack _); vm_compute; exact I). rewrite C3, Hp. f_equal. symmetry. by apply density_spec_frame.
  - exists o. rewrite Hp, (fresh_out_frame _ _ _ _ _ _ F). split; [done|].
    rewrite !HL by (apply (bool_decide_unpack _); vm_compute; exact I). done.
  - rewrite HI, C8, Hp. f_equal. apply map_ext. intros p. by apply cellno_frame.
  - unfold edges_now. rewrite Hx, Hy, C9, C9'. destruct F as (F1 & F2 & F3 & _). unfold ncell. by rewrite F1, F2, F3.
Qed.
(** Queries keep the algorithm and the cell indices. *)
Lemma run_container_run a t r c t' : run_simple_container a t r c = Ok t' -> t_algorithm t' = t_algorithm t /\ t_indices t' = t_indices t /\ t_edges_x t' = t_edges_x t /\ t_edges_y t' = t_edges_y t.
Proof.
  unfold run_simple_container. destruct (t_data t); [|done]. intros H.
  repeat (apply rbind_Ok in H as (? & _ & H)). by injection H as <-.
Qed.
Lemma t_query_run e t layer ro nodata up t' o : t_get_layers_by_name e t layer ro nodata up = Ok (t', o) ->
  t_algorithm t' = t_algorithm t /\ t_indices t' = t_indices t /\ t_edges_x t' = t_edges_x t /\ t_edges_y t' = t_edges_y t.
Proof.
  unfold t_get_layers_by_name. destruct (t_is_empty t); [by intros [= <- _]|]. intros (mr & _ & H)%rbind_Ok.
  destruct mr as [r|]; [|by injection H as <- _]. apply rbind_Ok in H as (t1 & H1 & H).
  apply rbind_Ok in H as (a & _ & H). injection H as <- _. unfold prepare_query in H1.
  case_bool_decide.
  { unfold run_slopes in H1. destruct (dmem _ _); [by injection H1 as <-|].
    repeat (apply rbind_Ok in H1 as (? & _ & H1)). by injection H1 as <-. }
  destruct (is_container_query layer); [|by injection H1 as <-].
  destruct (dmem (t_container t) layer).
  - repeat case_bool_decide; [by eapply run_container_run..|by destruct (e_cube_enabled e)|by injection H1 as <-].
  - apply rbind_Ok in H1 as (? & _ & H1). by injection H1 as <-.
Qed.
Lemma reload_run m t : t_algorithm (t_reload m t) = t_algorithm t /\ t_indices (t_reload m t) = t_indices t /\
  t_edges_x (t_reload m t) = t_edges_x t /\ t_edges_y (t_reload m t) = t_edges_y t.
Proof. unfold t_reload. by destruct (saves_grid m). Qed.

Lemma good_current e x y s b t sa ro clear mode gp border t' r :
  good e t -> at_square t x y s b -> (clear = true \/ same_kind (t_algorithm t) (alg_name sa)) ->
  t_grid e t (alg_name sa) ro clear mode gp border = Ok (t', r) -> current e sa r t'.
Proof.
  intros HG0 HQ0 HC Hg. destruct (good_grid_simple _ _ _ _ _ _ _ _ _ _ _ _ _ _ HG0 HQ0 HC Hg) as (HG & HQ & Hr & l & o & L1 & L2 & L3 & L4 & L5 & L6).
  destruct (t_grid_keeps _ _ _ _ _ _ _ _ _ _ Hg) as (F & D & _).
  assert (Hk : t_depth_key t' = depth_key_of b). { unfold t_depth_key. destruct F as (_ & _ & _ & ->). by destruct HQ as (_ & _ & _ & ->). }
  assert (Hp : pts t' = pts t) by (unfold pts; by rewrite D).
  assert (HL : forall name, layer_of t' r name = dget l name) by (intros; unfold layer_of; by rewrite L1).
  split; [done|..]; rewrite ?Hp, ?HL, ?Hk.
  - rewrite L3. f_equal. symmetry. by apply depth_spec_frame.
  - rewrite L4. f_equal. symmetry. by apply density_spec_frame.
  - exists o. rewrite (fresh_out_frame _ _ _ _ _ _ F). done.
  - destruct (good_grid _ _ _ _ _ _ _ _ _ _ _ _ _ _ HG0 HQ0 (alg_name_elem sa) HC Hg) as (_ & _ & _ & _ & _ & _ & l' & HT). apply (gt_alg _ _ _ _ _ _ _ _ _ HT).
  - destruct (good_grid _ _ _ _ _ _ _ _ _ _ _ _ _ _ HG0 HQ0 (alg_name_elem sa) HC Hg) as (_ & _ & _ & _ & _ & _ & l' & HT).
    rewrite (gt_idx _ _ _ _ _ _ _ _ _ HT), dget_dset_eq. f_equal. apply map_ext. intros p. by apply cellno_frame.
  - destruct (good_grid _ _ _ _ _ _ _ _ _ _ _ _ _ _ HG0 HQ0 (alg_name_elem sa) HC Hg) as (_ & _ & _ & _ & _ & _ & l' & HT).
    destruct (g_cells _ _ (gt_good _ _ _ _ _ _ _ _ _ HT) r l L1) as (_ & _ & Ex & Ey & _). by split.
  - destruct (good_grid _ _ _ _ _ _ _ _ _ _ _ _ _ _ HG0 HQ0 (alg_name_elem sa) HC Hg) as (_ & _ & _ & HA & _ & _ & l' & HT).
    intros sx Hsx. exfalso. rewrite HL in Hsx. pose proof (gridded_get _ _ _ _ _ _ _ _ _ HT) as E. rewrite L1 in E. injection E as ->.
    destruct (gt_keys _ _ _ _ _ _ _ _ _ HT "x_slope" (mk_is_Some _ _ Hsx)) as [K|(_ & K)].
    + by apply (slope_not_key e (t_depth_key t) sa) in K; [|apply depth_key_cases].
    + unfold layers_at in K. cbn [clear_temp_data t_cells] in K. change (t_cells (clear_temp_data t r)) with
        (dmapkv (fun r' l => if decide (r' = r) then clear_temp_layers l else l) (t_cells t)) in K. rewrite dget_dmapkv in K.
      destruct (dget (t_cells t) r) as [l0|]; cbn in K; [|by destruct K]. rewrite decide_True in K by done. unfold clear_temp_layers in K.
      rewrite !dget_ddel in K. cbn in K. by destruct K.
Qed.
Lemma grid_current q e x y s b t sa ro clear mode gp border t' r :
  0 < s -> tile_reach q e x y s b t -> (clear = true \/ same_kind (t_algorithm t) (alg_name sa)) ->
  t_grid e t (alg_name sa) ro clear mode gp border = Ok (t', r) -> current e sa r t'.
Proof. intros Hs HR. destruct (reach_good _ _ _ _ _ _ _ Hs HR) as (HG & HQ & _). by apply (good_current e x y s b). Qed.

(** A tile gridded only with one algorithm and resolution is current when nothing changed since. *)
Definition only (sa : simple_algorithm) (r : Z) : string -> Z -> Prop := fun a r' => a = alg_name sa /\ r' = r.
Lemma steps_current e sa r x y s b t ct f :
  0 < s -> tile_steps e (only sa r) x y s b t ct f -> f = false -> ct <> [] -> current e sa r t.
Proof.
  intros Hs. induction 1 as [|t ct f d c H IH Hd|t ct f c H IH|t ct f alg ro clear mode gp border t' r' H IH HA [-> ->] HC Hg|
    t ct f layer ro nodata up t' o H IH Hq|t ct f m H IH]; intros Hf Hne; try done.
  - apply orb_false_iff in Hf as [-> Hc]. apply bool_decide_eq_false in Hc.
    destruct (history_rep _ _ _ _ _ _ _ _ Hs (steps_history _ _ _ _ _ _ _ _ _ H)) as [HR _].
    rewrite (t_remove_absent t c ct HR Hc). rewrite drop_c_notin in Hne by done. by apply IH.
  - eapply grid_current; [exact Hs|by eapply steps_reach|exact HC|exact Hg].
  - eapply current_keeps; [by eapply t_query_keeps|intros; by eapply query_plain|by eapply t_query_run|intros [C1 C2 C3 C4 C5 C6 C7 C8]; by eapply query_slopes|by apply IH].
  - eapply current_keeps; [apply sr_reload_keeps|intros; by apply reload_plain|apply reload_run|intros C; by apply reload_slopes, C|by apply IH].
Qed.

Lemma tile_rez_given {T} (O : tile_ops T) m a r : ga_rez a = Some r -> tile_rez O m (grid_auto a) (Some r) = Some r.
Proof. intros Hr. unfold tile_rez, grid_auto. rewrite Hr. rewrite bool_decide_eq_true_2 by done. cbn [negb]. by rewrite !andb_false_r. Qed.

(** ** After a call of grid() with one of the simple algorithms *)
Section done.
  Context (e : env) (Q : string -> Z -> Prop) (size : Z) (b : bool) (Hsize : 0 < size).
  Notation rep := (steps_rep e Q size b).
  Definition all_steps (g : sr_grid) : Prop :=
    forall k t, tile_at g k = Some t -> exists x y ct, rep (m_algorithm (g_meta g)) t x y ct /\ ct <> [].

  Lemma mismatch_clear {T} (g : grid T) a : mismatch g a = false -> ga_clear a = false ->
    m_algorithm (g_meta g) = "" \/ m_algorithm (g_meta g) = ga_alg a.
  Proof.
    intros HM Hc. unfold mismatch in HM. rewrite Hc, andb_true_r in HM.
    apply andb_false_iff in HM as [HM|HM]; apply negb_false_iff, bool_decide_eq_true in HM; auto.
  Qed.
  Lemma steps_kind alg0 alg clear t x y ct : rep alg0 t x y ct -> (clear = false -> alg0 = "" \/ alg0 = alg) ->
    clear = true \/ same_kind (t_algorithm t) alg.
  Proof.
    intros (_ & _ & H3) HC. destruct clear; [by left|right]. unfold same_kind. destruct (t_algorithm t) as [a0|] eqn:E; [|done].
    destruct (H3 a0 E) as [-> Hk]. destruct (HC eq_refl) as [-> | ->]; [|done]. by destruct Hk as [|[|]].
  Qed.

  (** The resolution that every tile is gridded at. *)
  Definition grid_rez (g : sr_grid) (a : gargs) (r : Z) : Prop :=
    forall rez, call_rez sr_ops e g a = Ok rez -> tile_rez sr_ops (g_meta g) (grid_auto a) rez = Some r.
  Lemma sr_tile_current g a dask sa : origins sr_ops g -> all_steps g -> ga_alg a = alg_name sa ->
    exn_of (g_grid sr_ops e g a dask) = None ->
    let g' := st_of (g_grid sr_ops e g a dask) in
    exists rez, call_rez sr_ops e g a = Ok rez /\
    forall k t, tile_at g k = Some t -> exists t', tile_at g' k = Some t' /\ tile_keeps t t' /\
      if skip_tile sr_ops a (clear_at sr_ops a (ga_clear a) (tile_list g) k) t then t' = t
      else exists r, choose_resolution e t (tile_rez sr_ops (g_meta g) (grid_auto a) rez) (grid_auto a) = Ok r /\
             current e sa r t' /\ r ∈ m_rezs (g_meta g').
  Proof using Hsize.
    intros Ho HS Ha Hx g'. destruct (sr_done_tile e g a dask Ho Hx) as (rez & Hrez & HT). exists rez. split; [done|].
    pose proof (gd_match _ _ _ _ _ _ (sr_finished e g a dask Ho Hx)) as HM.
    intros k t Ht. destruct (HT k t Ht) as (t' & Ht' & H). exists t'. split; [done|]. cbv zeta in H.
    destruct (skip_tile _ _ _ t); [destruct H as [-> _]; split; [apply tile_keeps_refl|done]|].
    destruct H as (bd & t1 & r & Hb & Hr & Hg & ->).
    assert (HA : known_alg (ga_alg a)) by (rewrite Ha; apply known_elem, alg_name_elem).
    assert (HK : tile_keeps t1 (if g_disk g then t_reload SaveGrid t1 else t1)) by (destruct (g_disk g); [apply sr_reload_keeps|apply tile_keeps_refl]).
    split; [eapply tile_keeps_trans; [by eapply t_grid_keeps|exact HK]|].
    exists r. split; [by destruct (t_grid_inv _ _ _ _ _ _ _ _ _ _ HA Hg) as (Hch & _)|]. split; [|done].
    destruct (HS k t Ht) as (x & y & ct & HR & _). pose proof HR as (_ & (f & Hst) & _). rewrite Ha in Hg.
    assert (HC : current e sa r t1).
    { eapply grid_current; [exact Hsize|by eapply steps_reach| |exact Hg]. eapply steps_kind; [exact HR|]. intros Hc.
      rewrite <- Ha. apply mismatch_clear; [done|]. unfold next_clear in Hc. by destruct (_ && _). }
    destruct (g_disk g); [|done]. eapply current_keeps; [apply sr_reload_keeps|intros; by apply reload_plain|apply reload_run|intros C; by apply reload_slopes, C|done].
  Qed.

  Lemma given_rez g a r : ga_rez a = Some r -> grid_rez g a r.
  Proof. intros Hr rez. unfold call_rez. rewrite Hr. intros [= <-]. by apply tile_rez_given. Qed.
  (** With one resolution: every tile is current unless it was skipped and was not before. *)
  Lemma sr_all_current g a dask sa r : origins sr_ops g -> all_steps g -> ga_alg a = alg_name sa -> grid_rez g a r ->
    exn_of (g_grid sr_ops e g a dask) = None ->
    (forall k t, tile_at g k = Some t -> ga_regrid a = "update" -> ga_clear a = false -> t_changed t = false -> current e sa r t) ->
    let g' := st_of (g_grid sr_ops e g a dask) in
    forall k, match tile_at g k, tile_at g' k with
              | Some t, Some t' => tile_keeps t t' /\ current e sa r t'
              | None, None => True
              | _, _ => False
              end.
  Proof using Hsize.
    intros Ho HS Ha Hr Hx Hskip g' k. destruct (sr_tile_current g a dask sa Ho HS Ha Hx) as (rez & Hrez & HT).
    destruct (tile_at g k) as [t|] eqn:Ht.
    - destruct (HT k t Ht) as (t' & Ht' & HK & H). unfold g'. rewrite Ht'. split; [done|]. destruct (skip_tile _ _ _ t) eqn:Hs.
      + subst t'. unfold skip_tile in Hs. apply andb_true_iff in Hs as [Hs H3]. apply andb_true_iff in Hs as [H1 H2].
        apply bool_decide_eq_true in H1. apply negb_true_iff in H2, H3. unfold clear_at in H2. apply orb_false_iff in H2 as [H2 _].
        by eapply Hskip.
      + destruct H as (r' & Hch & HC & _). rewrite (Hr rez Hrez) in Hch. cbn in Hch. by injection Hch as <-.
    - destruct (sr_finished e g a dask Ho Hx) as [_ _ _ _ _ _ D _]. unfold g'. by rewrite (D k Ht).
  Qed.
End done.

Definition plain_args (sa : simple_algorithm) (r : Z) (a : gargs) : Prop := ga_alg a = alg_name sa /\ ga_rez a = Some r.
Lemma plain_allows sa r a : plain_args sa r a -> allows (only sa r) a.
Proof. intros [H1 H2]. split; [unfold known_args; rewrite H1; apply alg_name_elem|]. rewrite H2, H1. by split. Qed.
Lemma known_allows a : known_args a -> allows (fun _ _ => True) a.
Proof. intros H. split; [done|]. by destruct (ga_rez a). Qed.

Section slots.
  Context {T : Type} (m0 : gmeta) (rep : T -> Z -> Z -> content -> Prop).
  Lemma placed_rep g ct lx ly nx ny a k t : placed m0 rep g ct lx ly nx ny a -> tile_at g k = Some t ->
    exists x y ct, rep t x y ct /\ ct <> [].
  Proof.
    intros P Ht. destruct (placed_origin _ _ _ _ _ _ _ _ _ _ _ P Ht) as (x & y & Ho).
    pose proof (placed_loc _ _ _ _ _ _ _ _ _ _ _ _ P Ho) as H. rewrite Ht in H. destruct H as [H1 H2]. eauto.
  Qed.
  Lemma root_rep g ct seen ok k t : root_inv m0 rep g ct seen ok -> tile_at g k = Some t -> exists x y ct, rep t x y ct /\ ct <> [].
  Proof.
    intros [_ [(H1 & _)|(_ & lx & ly & nx & ny & a & P & _)]] Ht; [|by eapply placed_rep].
    unfold tile_at in Ht. by rewrite H1 in Ht.
  Qed.
  Lemma child_rep X Y W g ct k t : child_inv m0 rep X Y W g ct -> tile_at g k = Some t -> exists x y ct, rep t x y ct /\ ct <> [].
  Proof.
    intros [_ [(H1 & _)|(_ & a & P & _)]] Ht; [|by eapply placed_rep].
    unfold tile_at in Ht. by rewrite H1 in Ht.
  Qed.
End slots.

Lemma steps_unchanged e sa r size b alg t x y ct : 0 < size -> steps_rep e (only sa r) size b alg t x y ct -> ct <> [] ->
  t_changed t = false -> current e sa r t.
Proof.
  intros Hs (_ & (f & H) & _) Hne Hc. eapply steps_current; [done|exact H| |done].
  destruct (history_rep _ _ _ _ _ _ _ _ Hs (steps_history _ _ _ _ _ _ _ _ _ H)) as [_ <-]. done.
Qed.

(** Single resolution grids used with one algorithm and resolution only. *)
Lemma sr_only_current e size b zarr disk sa r g ct a dask :
  0 < size -> sr_clean e (plain_args sa r) size b zarr disk g ct -> plain_args sa r a ->
  exn_of (g_grid sr_ops e g a dask) = None ->
  let g' := st_of (g_grid sr_ops e g a dask) in
  forall k, match tile_at g k, tile_at g' k with
            | Some t, Some t' => tile_keeps t t' /\ current e sa r t'
            | None, None => True
            | _, _ => False
            end.
Proof.
  intros Hs H [Ha Hr] Hx. destruct (sr_clean_inv e _ _ size b zarr disk Hs (plain_allows sa r) g ct H) as (_ & seen & ok & HI).
  apply (sr_all_current e (only sa r) size b Hs); try done; [by eapply root_origins|intros k t Ht; by eapply root_rep|by apply given_rez|].
  intros k t Ht _ _ Hc. destruct (root_rep _ _ _ _ _ _ _ _ HI Ht) as (x & y & ct' & HR & Hne). by eapply steps_unchanged.
Qed.

(** Any history, when every tile is gridded again. *)
Lemma sr_full_current e (P : gargs -> Prop) size b zarr disk sa r g ct a dask :
  0 < size -> (forall a, P a -> known_args a) -> sr_clean e P size b zarr disk g ct -> ga_alg a = alg_name sa -> grid_rez e g a r ->
  (ga_regrid a = "update" -> ga_clear a = true) ->
  exn_of (g_grid sr_ops e g a dask) = None ->
  let g' := st_of (g_grid sr_ops e g a dask) in
  forall k, match tile_at g k, tile_at g' k with
            | Some t, Some t' => tile_keeps t t' /\ current e sa r t'
            | None, None => True
            | _, _ => False
            end.
Proof.
  intros Hs HP H Ha Hr Hu Hx.
  destruct (sr_clean_inv e (fun _ _ => True) P size b zarr disk Hs (fun a Pa => known_allows a (HP a Pa)) g ct H) as (_ & seen & ok & HI).
  apply (sr_all_current e (fun _ _ => True) size b Hs); try done; [by eapply root_origins|intros k t Ht; by eapply root_rep|].
  intros k t Ht H1 H2 _. rewrite (Hu H1) in H2. done.
Qed.

(** ** Variable resolution grids *)
Section vr.
  Context (e : env) (size sub : Z) (b zarr disk : bool) (Hsize : 0 < size) (Hsub : 0 < sub).
  Definition all_current sa r (sg sg' : grid tile) : Prop :=
    forall j, match tile_at sg j, tile_at sg' j with
              | Some t, Some t' => tile_keeps t t' /\ current e sa r t'
              | None, None => True
              | _, _ => False
              end.
  Lemma vr_all_current Q g ct seen ok a dask sa r :
    root_inv (new_vr_meta 0 0 size sub b zarr) (sub_rep e Q size sub b zarr (m_algorithm (g_meta g))) g ct seen ok ->
    allows Q a -> plain_args sa r a -> exn_of (g_grid vr_ops e g a dask) = None ->
    (ga_regrid a = "update" -> ga_clear a = false -> forall t x y alg ct, steps_rep e Q sub false alg t x y ct -> ct <> [] -> t_changed t = false -> current e sa r t) ->
    let g' := st_of (g_grid vr_ops e g a dask) in
    forall k, match tile_at g k, tile_at g' k with
              | Some sg, Some sg' => all_current sa r sg sg'
              | None, None => True
              | _, _ => False
              end.
  Proof using Hsize Hsub.
    intros HI HA [Ha Hr] Hx Hskip g' k. destruct (vr_done_tile e g a dask Hx) as (rez & Hrez & HT).
    destruct (tile_at g k) as [sg|] eqn:Ht.
    2:{ destruct (vr_finished e g a dask (vr_origins g) Hx) as [_ _ _ _ _ _ D _]. unfold g'. by rewrite (D k Ht). }
    destruct (HT k sg Ht) as (sg' & Ht' & H). unfold g'. rewrite Ht'.
    destruct (root_rep _ _ _ _ _ _ _ _ HI Ht) as (x & y & ct' & [HC _] & Hne).
    assert (Hrep : forall j t, tile_at sg j = Some t -> exists x y ct, steps_rep e Q sub false (m_algorithm (g_meta sg)) t x y ct /\ ct <> []).
    { intros j t Hj. by eapply child_rep. }
    destruct (skip_tile _ _ _ sg) eqn:Hs.
    - destruct H as [-> _]. intros j. destruct (tile_at sg j) as [t|] eqn:Hj; [|done]. split; [apply tile_keeps_refl|].
      unfold skip_tile in Hs. apply andb_true_iff in Hs as [Hs H3]. apply andb_true_iff in Hs as [H1 H2].
      apply bool_decide_eq_true in H1. apply negb_true_iff in H2, H3. cbn in H3. unfold g_changed in H3.
      destruct (Hrep j t Hj) as (u & v & ct2 & HR & Hne2). eapply Hskip; [done|done|exact HR|done|].
      apply not_true_iff_false. intros Hc. apply not_true_iff_false in H3. apply H3. apply existsb_exists. exists t. split; [|done].
      apply elem_of_list_In. by eapply tile_at_live.
    - destruct H as (bd & Hb & H). cbv zeta in H. destruct H as (Hx2 & -> & _).
      pose proof (allows_nested vr_ops e Q g a rez (g_meta g) (ga_clear a) bd HA Hrez) as HA'.
      assert (Hr' : ga_rez (call_args vr_ops a (grid_auto a) rez (g_meta g) (ga_clear a) bd) = Some r).
      { unfold call_rez, grid_auto, tile_rez, call_args in *. rewrite Hr in *. injection Hrez as <-. done. }
      set (a' := call_args _ _ _ _ _ _ _) in *.
      intros j0. apply (sr_all_current e Q sub false Hsub sg a' None sa r); try done; [by eapply child_origins|by apply given_rez|].
      intros j t Hj H1 H2 Hc. destruct (Hrep j t Hj) as (u & v & ct2 & HR & Hne2). by eapply Hskip.
  Qed.
  Lemma vr_only_current sa r g ct a dask :
    vr_clean e (plain_args sa r) size sub b zarr disk g ct -> plain_args sa r a ->
    exn_of (g_grid vr_ops e g a dask) = None ->
    let g' := st_of (g_grid vr_ops e g a dask) in
    forall k, match tile_at g k, tile_at g' k with
              | Some sg, Some sg' => all_current sa r sg sg'
              | None, None => True
              | _, _ => False
              end.
  Proof using Hsize Hsub.
    intros H Ha Hx. destruct (vr_clean_inv e _ _ size sub b zarr disk Hsize Hsub (plain_allows sa r) g ct H) as (_ & seen & ok & HI).
    eapply vr_all_current; [exact HI|by apply plain_allows|done|done|].
    intros _ _ t x y alg ct' HR Hne Hc. by eapply steps_unchanged.
  Qed.
  Lemma vr_full_current (P : gargs -> Prop) sa r g ct a dask :
    (forall a, P a -> known_args a) -> vr_clean e P size sub b zarr disk g ct -> plain_args sa r a ->
    (ga_regrid a = "update" -> ga_clear a = true) ->
    exn_of (g_grid vr_ops e g a dask) = None ->
    let g' := st_of (g_grid vr_ops e g a dask) in
    forall k, match tile_at g k, tile_at g' k with
              | Some sg, Some sg' => all_current sa r sg sg'
              | None, None => True
              | _, _ => False
              end.
  Proof using Hsize Hsub.
    intros HP H Ha Hu Hx.
    destruct (vr_clean_inv e (fun _ _ => True) P size sub b zarr disk Hsize Hsub (fun a Pa => known_allows a (HP a Pa)) g ct H) as (_ & seen & ok & HI).
    eapply vr_all_current; [exact HI|apply known_allows; unfold known_args; destruct Ha as [-> _]; apply alg_name_elem|done|done|].
    intros H1 H2. rewrite (Hu H1) in H2. done.
  Qed.
End vr.

(** ** The change flags after grid() *)
Lemma t_grid_unchanged e t alg ro clear mode gp border t' r : t_grid e t alg ro clear mode gp border = Ok (t', r) -> t_changed t' = false.
Proof.
  unfold t_grid. intros H. apply rbind_Ok in H as (r0 & _ & H). destruct (negb _); [done|].
  apply rbind_Ok in H as (t2 & _ & H). apply rbind_Ok in H as (t3 & _ & H). injection H as H _. by rewrite <- H.
Qed.

Lemma sr_unchanged e (g : sr_grid) a dask : origins sr_ops g -> exn_of (g_grid sr_ops e g a dask) = None ->
  g_changed sr_ops (st_of (g_grid sr_ops e g a dask)) = false.
Proof.
  intros Ho Hx. apply not_true_iff_false. intros (t' & Ht' & Hc)%existsb_exists. apply elem_of_list_In, live_tile_at in Ht' as (k & Ht').
  destruct (tile_at g k) as [t|] eqn:Ht; [|by rewrite (gd_none _ _ _ _ _ _ (sr_finished e g a dask Ho Hx) k Ht) in Ht'].
  destruct (sr_done_tile e g a dask Ho Hx) as (rez & _ & HT). destruct (HT k t Ht) as (t2 & Ht2 & H).
  rewrite Ht2 in Ht'. injection Ht' as ->. cbv zeta in H. cbn in Hc. destruct (skip_tile _ _ _ t) eqn:Hs.
  - destruct H as [-> _]. unfold skip_tile in Hs. apply andb_true_iff in Hs as [_ Hs]. cbn in Hs. by rewrite Hc in Hs.
  - destruct H as (b & t1 & r & _ & _ & Hg & ->). apply t_grid_unchanged in Hg. by destruct (g_disk g); cbn in Hc; rewrite Hg in Hc.
Qed.
Lemma vr_unchanged e (g : vr_grid) a dask :
  (forall k sg, tile_at g k = Some sg -> origins sr_ops sg) -> exn_of (g_grid vr_ops e g a dask) = None ->
  g_changed vr_ops (st_of (g_grid vr_ops e g a dask)) = false.
Proof.
  intros Ho Hx. apply not_true_iff_false. intros (t' & Ht' & Hc)%existsb_exists. apply elem_of_list_In, live_tile_at in Ht' as (k & Ht').
  destruct (tile_at g k) as [t|] eqn:Ht; [|by rewrite (gd_none _ _ _ _ _ _ (vr_finished e g a dask (vr_origins g) Hx) k Ht) in Ht'].
  destruct (vr_done_tile e g a dask Hx) as (rez & _ & HT). destruct (HT k t Ht) as (t2 & Ht2 & H).
  rewrite Ht2 in Ht'. injection Ht' as ->. cbn in Hc. destruct (skip_tile _ _ _ t) eqn:Hs.
  - destruct H as [-> _]. unfold skip_tile in Hs. apply andb_true_iff in Hs as [_ Hs]. cbn in Hs. by rewrite Hc in Hs.
  - destruct H as (bd & _ & H). cbv zeta in H. destruct H as (Hx2 & -> & _). rewrite sr_unchanged in Hc; [done|by eapply Ho|done].
Qed.

(** ** When grid() returns normally *)
Lemma rmap_exists {A B} (f : A -> res B) l : (forall a, a ∈ l -> exists b, f a = Ok b) -> exists bs, rmap f l = Ok bs.
Proof.
  induction l as [|a l IH]; intros H; [by exists []|]. cbn [rmap]. destruct (H a) as [b ->]; [left|].
  destruct IH as [bs ->]; [intros; apply H; by right|]. by eexists.
Qed.
Lemma sr_borders_ok (g : sr_grid) a dask rez k t : (forall j u, tile_at g j = Some u -> t_data u <> None) ->
  (grid_auto a = "" -> is_Some rez) -> exists b, borders sr_ops g a dask rez k t = Ok b.
Proof.
  intros Hd Hr. unfold borders, border_for. destruct (bool_decide (ga_alg a = "cube")); [|by eexists].
  assert (exists q, buffer sr_ops dask (grid_auto a) rez t = Ok q) as [q ->].
  { unfold buffer. destruct dask; [|by eexists]. unfold parallel_buffer. destruct (decide (grid_auto a = "")) as [E|E].
    - rewrite bool_decide_eq_true_2 by done. cbn. destruct (Hr E) as [r ->]. by eexists.
    - rewrite bool_decide_eq_false_2 by done. by eexists. }
  cbn [rbind]. unfold get_tile_neighbor_points.
  destruct (rmap_exists (neighbour_strip sr_ops g k q) [Above; Right; Below; Left]) as [l ->].
  { intros s _. unfold neighbour_strip, neighbour. destruct (g_tiles g) as [x|]; [|by eexists].
    destruct (neighbour_index _ _ k s) as [j|]; [|by eexists]. destruct (tile_at g j) as [u|] eqn:Hu; [|by eexists].
    cbn. unfold t_strip. destruct (t_data u) eqn:E; [by eexists|by apply Hd in Hu]. }
  cbn [rbind]. by eexists.
Qed.

Section total.
  Context (e : env) (Q : string -> Z -> Prop) (size : Z) (b : bool) (Hsize : 0 < size).
  Lemma steps_data alg t x y ct : steps_rep e Q size b alg t x y ct -> ct <> [] -> exists d, t_data t = Some d.
  Proof. intros ((_ & HR & _) & _) Hne. destruct (t_data t) eqn:E; [by eexists|]. by apply (tr_none _ _ HR) in E. Qed.

  Lemma sr_total (g : sr_grid) a dask r : origins sr_ops g -> tiles_known dask g -> all_steps e Q size b g -> mismatch g a = false -> g_is_empty g = false ->
    known_args a -> ga_rez a = Some r -> is_power_of_two (metres e r) = true -> (ga_alg a = "cube" -> cube_ready e) ->
    exn_of (g_grid sr_ops e g a dask) = None.
  Proof using Hsize.
    intros Ho Hcn HS HM He HA Hr Hp HQ.
    apply (grid_total sr_ops e tile_keeps tile_keeps_refl tile_keeps_trans (sr_grid_keeps e) sr_reload_keeps t_strip_keeps g a dask (Some r));
      [done..|unfold call_rez; by rewrite Hr|].
    intros k t Ht. unfold entry_result, entry_at. cbn [en_k en_t en_run Nat.add]. destruct (skip_tile _ _ _ t); [by eexists|].
    destruct (sr_borders_ok g a dask (Some r) k t) as [bd Hb].
    { intros j u Hu. destruct (HS j u Hu) as (? & ? & ? & HR & Hne). destruct (steps_data _ _ _ _ _ HR Hne) as [d ->]. done. }
    { by eexists. }
    rewrite Hb. cbn [rbind]. destruct (HS k t Ht) as (x & y & ct & HR & Hne). destruct (steps_data _ _ _ _ _ HR Hne) as [d Hd].
    pose proof HR as (_ & (f & Hst) & _).
    destruct (reach_grid_total true e x y size b t (ga_alg a) r (next_clear sr_ops a (ga_clear a)) (grid_auto a) (ga_params a) bd d) as [t' Hg]; try done.
    { by eapply steps_reach. }
    { eapply steps_kind; [exact HR|]. intros Hc. apply mismatch_clear; [done|]. unfold next_clear in Hc. by destruct (_ && _). }
    cbn [sr_ops op_grid call_args ga_alg ga_rez ga_clear ga_mode ga_params ga_border].
    rewrite (tile_rez_given sr_ops (g_meta g) a r Hr), Hg. cbn. by eexists.
  Qed.
End total.

Lemma child_is_empty {T} m0 (rep : T -> Z -> Z -> content -> Prop) X Y W g ct : 0 < m_tile_size m0 ->
  child_inv m0 rep X Y W g ct -> g_is_empty g = bool_decide (ct = []).
Proof.
  intros Hs [B [(H1 & -> & _)|(_ & a & [P1 P2 P3 P4 P5 P6 P7 P8] & _)]].
  - unfold g_is_empty. by rewrite H1.
  - apply (slots_is_empty m0 rep Hs g ct _ _ _ _ a P4 P7 P8). apply B.
Qed.

(** Single resolution grids. *)
Lemma sr_grid_returns e (P : gargs -> Prop) size b zarr disk g ct a dask r :
  0 < size -> (forall a, P a -> known_args a) -> sr_clean e P size b zarr disk g ct -> ct <> [] ->
  mismatch g a = false -> known_args a -> ga_rez a = Some r -> is_power_of_two (metres e r) = true ->
  (ga_alg a = "cube" -> cube_ready e) -> exn_of (g_grid sr_ops e g a dask) = None.
Proof.
  intros Hs HP H Hne HM HA Hr Hp HQ.
  destruct (sr_clean_inv e (fun _ _ => True) P size b zarr disk Hs (fun a Pa => known_allows a (HP a Pa)) g ct H) as (_ & seen & ok & HI).
  eapply (sr_total e (fun _ _ => True) size b Hs); try done; [by eapply root_origins|by eapply root_tiles_known|intros k t Ht; by eapply root_rep|].
  rewrite (root_is_empty (new_sr_meta 0 0 size b zarr) _ Hs _ _ _ _ HI). by apply bool_decide_eq_false_2.
Qed.
(** Variable resolution grids, without CUBE. *)
Lemma vr_grid_returns e (P : gargs -> Prop) size sub b zarr disk g ct a dask r sa :
  0 < size -> 0 < sub -> (forall a, P a -> known_args a) -> vr_clean e P size sub b zarr disk g ct -> ct <> [] ->
  mismatch g a = false -> ga_alg a = alg_name sa -> ga_rez a = Some r -> is_power_of_two (metres e r) = true ->
  exn_of (g_grid vr_ops e g a dask) = None.
Proof.
  intros Hs Hsub HP H Hne HM HA Hr Hp.
  destruct (vr_clean_inv e (fun _ _ => True) P size sub b zarr disk Hs Hsub (fun a Pa => known_allows a (HP a Pa)) g ct H) as (_ & seen & ok & HI).
  apply (grid_total vr_ops e sub_keeps sub_keeps_refl sub_keeps_trans (vr_grid_keeps e) vr_reload_keeps g_strip_keeps g a dask (Some r));
    [apply vr_origins|by eapply root_tiles_known|done| |unfold call_rez; by rewrite Hr|].
  { rewrite (root_is_empty (new_vr_meta 0 0 size sub b zarr) _ Hs _ _ _ _ HI). by apply bool_decide_eq_false_2. }
  intros k sg Ht. unfold entry_result, entry_at. cbn [en_k en_t en_run Nat.add]. destruct (skip_tile _ _ _ sg); [by eexists|].
  assert (Hb : borders vr_ops g a dask (Some r) k sg = Ok None).
  { unfold borders, border_for. rewrite bool_decide_eq_false_2; [done|]. rewrite HA. by destruct sa. }
  rewrite Hb. cbn [rbind]. cbn [vr_ops grid_ops op_grid op_sr]. rewrite andb_false_r. set (a' := call_args _ _ _ _ _ _ _).
  destruct (root_rep _ _ _ _ _ _ _ _ HI Ht) as (x & y & ct' & [HC HS] & Hne').
  assert (Hx : exn_of (g_grid sr_ops e sg a' None) = None).
  { apply (sr_total e (fun _ _ => True) sub false Hsub sg a' None r); try done.
    - by eapply child_origins.
    - apply tiles_known_none.
    - intros j t Hj. by eapply child_rep.
    - unfold mismatch, a', call_args. cbn [ga_alg ga_clear]. unfold next_clear. cbn [vr_ops grid_ops op_sr]. rewrite andb_false_r.
      destruct (ga_clear a) eqn:Hc; [by rewrite andb_false_r|]. destruct (mismatch_clear g a HM Hc) as [E|E]; destruct HS as [S|[S K]].
      + by rewrite S.
      + rewrite S. rewrite E. done.
      + by rewrite S.
      + rewrite S, E. by rewrite (bool_decide_eq_true_2 (ga_alg a = ga_alg a)), andb_false_r by done.
    - by rewrite (child_is_empty (sub0 size sub b zarr x y) _ _ _ _ _ _ Hsub HC), bool_decide_eq_false_2.
    - unfold known_args, a'. cbn. rewrite HA. apply alg_name_elem.
    - unfold a', call_args. cbn [ga_rez]. by apply tile_rez_given.
    - intros Hcube. exfalso. unfold a' in Hcube. cbn in Hcube. rewrite HA in Hcube. by destruct sa. }
  rewrite Hx. by eexists.
Qed.

(** ** In terms of the points of the grid *)
Lemma current_reflects e sa r t x y s b ct : 0 < s -> sr_rep s b t x y ct -> current e sa r t ->
  reflects e (alg_name sa) r x y s b (all_points ct) t.
Proof.
  intros Hs (HQ & HR & Hin) [C1 C2 C3 (o & C4 & C5 & C6)]. pose proof (tr_data _ _ HR) as Hp.
  assert (Hcp : forall row col, tile_cell t r row col (pts t) = points_in_cell x y r row col (all_points ct)).
  { intros. rewrite Hp. by eapply tile_cell_square. }
  destruct HQ as (Q1 & Q2 & Q3 & Q4).
  assert (Ht : Forall (in_tile t) (pts t)). { rewrite Hp. unfold in_tile. by rewrite Q1, Q2, Q3. }
  destruct (fresh_out_spec e t sa r (pts t) o ltac:(lia) C1 Ht C4) as (_ & _ & S3 & S4).
  exists (ncell t r), (depth_spec t sa r pz (pts t)), (density_spec t r (pts t)).
  split; [done|]. split; [rewrite <- Q3; apply ncell_cover; [lia|done]|].
  split; [unfold t_depth_key in C2; by rewrite Q4 in C2|]. split; [done|].
  split; [|split; [|split; [|split]]].
  - destruct sa; [|done]. intros _. eapply layer_impl; [apply depth_spec_mean|]; intros row col v _ _; cbv beta; by rewrite Hcp.
  - destruct sa; [done|]. intros _. eapply layer_impl; [apply depth_spec_least|]; intros row col v _ _; cbv beta; by rewrite Hcp.
  - eapply layer_impl; [apply density_spec_layer|]; intros row col v _ _; cbv beta; by rewrite Hcp.
  - destruct sa; [|done]. intros _ Hb. exists (depth_spec t Mean r ptvu (pts t)). rewrite <- S3 by done. split; [by apply C5|]. rewrite S3 by done.
    eapply layer_impl; [apply depth_spec_mean|]; intros row col v _ _; cbv beta; by rewrite Hcp.
  - destruct sa; [|done]. intros _ Hb. exists (depth_spec t Mean r pthu (pts t)). rewrite <- S4 by done. split; [by apply C6|]. rewrite S4 by done.
    eapply layer_impl; [apply depth_spec_mean|]; intros row col v _ _; cbv beta; by rewrite Hcp.
Qed.
Lemma current_same e sa r t t' u u' b : tile_keeps u t -> tile_keeps u' t' -> tile_keeps u u' -> t_backscatter u = b ->
  current e sa r t -> current e sa r t' -> same_tile e b r t t'.
Proof.
  intros K1 K2 K3 Hb C C'. assert (K : tile_keeps t t').
  { destruct K1 as (F1 & D1 & T1), K2 as (F2 & D2 & T2), K3 as (F3 & D3 & T3).
    destruct F1 as (A1 & A2 & A3 & A4), F2 as (B1 & B2 & B3 & B4), F3 as (E1 & E2 & E3 & E4). repeat split; congruence. }
  assert (Hbt : t_backscatter t = b) by (destruct K1 as ((_ & _ & _ & ->) & _); done).
  destruct K as (F & D & T). split; [done|]. split; [done|].
  assert (Hp : pts t' = pts t) by (unfold pts; by rewrite D).
  assert (Hk : t_depth_key t' = t_depth_key t) by (unfold t_depth_key; by destruct F as (_ & _ & _ & ->)).
  destruct C as [C1 C2 C3 (o & C4 & C5 & C6)], C' as [C1' C2' C3' (o' & C4' & C5' & C6')].
  rewrite Hp, (fresh_out_frame _ _ _ _ _ _ F), C4 in C4'. injection C4' as <-.
  rewrite Hp, Hk, (depth_spec_frame _ _ _ _ _ _ F) in C2'. rewrite Hp, (density_spec_frame _ _ _ _ F) in C3'.
  intros name [->|[->|[[-> Hu]|[-> Hu]]]].
  - unfold t_depth_key in C2, C2'. rewrite Hbt in C2, C2'. unfold depth_key_of in *. rewrite C2, C2'. split; [by eexists|done].
  - rewrite C3, C3'. split; [by eexists|done].
  - rewrite C5, C5' by done. split; [by eexists|done].
  - rewrite C6, C6' by done. split; [by eexists|done].
Qed.

(** Locations of a grid with a clean history. *)
Lemma sr_clean_loc e (P : gargs -> Prop) size b zarr disk g ct k x y :
  0 < size -> (forall a, P a -> known_args a) -> sr_clean e P size b zarr disk g ct -> origin_at g k = Some (x, y) ->
  let here := filter (fun p => in_square x y size (px p) (py p)) (all_points ct) in
  match tile_at g k with
  | Some t => t_data t = Some here /\ here <> [] /\ sr_rep size b t x y (content_in x y size ct) /\ all_points (content_in x y size ct) = here
  | None => here = []
  end.
Proof.
  intros Hs HP H Ho here.
  destruct (sr_clean_inv e (fun _ _ => True) P size b zarr disk Hs (fun a Pa => known_allows a (HP a Pa)) g ct H) as (_ & seen & ok & HI).
  pose proof (root_loc _ _ _ _ _ _ _ _ _ HI Ho) as HL. cbn [m_tile_size new_sr_meta new_meta] in HL.
  assert (El : all_points (content_in x y size ct) = here) by apply content_in_points.
  destruct (tile_at g k) as [t|]; cbn in HL; [|by rewrite <- El, HL].
  destruct HL as (Hne & HR & _). pose proof HR as (_ & HT & _). rewrite (rep_data _ _ HT Hne), El. split; [done|]. split; [|done].
  subst here. by apply content_in_points_ne.
Qed.
Lemma vr_clean_loc e (P : gargs -> Prop) size sub b zarr disk g ct x y sg j u v :
  0 < size -> 0 < sub -> (forall a, P a -> known_args a) -> vr_clean e P size sub b zarr disk g ct ->
  has_tile g x y sg -> origin_at sg j = Some (u, v) ->
  let here := filter (fun p => in_square x y size (px p) (py p) /\ in_square u v sub (px p) (py p)) (all_points ct) in
  match tile_at sg j with
  | Some t => t_data t = Some here /\ here <> [] /\ exists ct', sr_rep sub false t u v ct' /\ all_points ct' = here
  | None => here = []
  end.
Proof.
  intros Hs Hsub HP H Hg Ho here.
  destruct (vr_clean_inv e (fun _ _ => True) P size sub b zarr disk Hs Hsub (fun a Pa => known_allows a (HP a Pa)) g ct H) as (_ & seen & ok & HI).
  destruct (root_has _ _ _ _ _ _ _ _ _ HI Hg) as [Hne [HC _]]. cbn [m_tile_size new_vr_meta new_meta] in *.
  assert (El : all_points (content_in u v sub (content_in x y size ct)) = here) by (by rewrite !content_in_points, filter_both).
  assert (HL : slot_ok (steps_rep e (fun _ _ => True) sub false (m_algorithm (g_meta sg))) u v (content_in u v sub (content_in x y size ct)) (tile_at sg j)).
  { destruct HC as [_ [(H1 & Hz & _)|(_ & a & HPl & _)]]; [done|]. exact (placed_loc _ _ _ _ _ _ _ _ _ _ _ _ HPl Ho). }
  destruct (tile_at sg j) as [t|]; cbn in HL; [|by rewrite <- El, HL].
  destruct HL as (Hn2 & HR & _). pose proof HR as (_ & HT & _). rewrite (rep_data _ _ HT Hn2), El. split; [done|]. split.
  - rewrite <- El. rewrite all_points_nil_iff; [done|]. apply content_in_nonempty.
  - by exists (content_in u v sub (content_in x y size ct)).
Qed.

Lemma clean_mono {T} (O : tile_ops T) e (P P' : gargs -> Prop) g0 g ct : (forall a, P a -> P' a) ->
  clean_history O e P g0 g ct -> clean_history O e P' g0 g ct.
Proof.
  intros HP. induction 1; [apply CH_new|by apply CH_add|by apply CH_add_failed|by apply CH_remove|by apply CH_grid; [|apply HP|]|by eapply CH_query].
Qed.

Section reflect.
  Context (e : env) (P : gargs -> Prop) (HP : forall a, P a -> known_args a) (sa : simple_algorithm) (r : Z).
  Lemma simple_known a : ga_alg a = alg_name sa -> known_args a.
  Proof. intros H. unfold known_args. rewrite H. apply alg_name_elem. Qed.

  Section sr.
    Context (size : Z) (b zarr disk : bool) (Hs : 0 < size).
    Lemma sr_reflects_current g ct : sr_clean e P size b zarr disk g ct ->
      (forall k t, tile_at g k = Some t -> current e sa r t) -> sr_reflects e (alg_name sa) r size b ct g.
    Proof using Hs HP.
      intros H HC k x y Ho here. pose proof (sr_clean_loc e P size b zarr disk g ct k x y Hs HP H Ho) as HL. cbv zeta in HL.
      destruct (tile_at g k) as [t|] eqn:Ht; [|done]. destruct HL as (H1 & H2 & H3 & H4). split; [done|]. split; [done|].
      subst here. rewrite <- H4. apply current_reflects; [done|done|]. by eapply HC.
    Qed.
  End sr.
  Section vr.
    Context (size sub : Z) (b zarr disk : bool) (Hs : 0 < size) (Hsub : 0 < sub).
    Lemma vr_reflects_current g ct : vr_clean e P size sub b zarr disk g ct ->
      (forall k sg j t, tile_at g k = Some sg -> tile_at sg j = Some t -> current e sa r t) -> vr_reflects e (alg_name sa) r size sub ct g.
    Proof using Hs Hsub HP.
      intros H HC x y sg j u v Hg Ho here. pose proof (vr_clean_loc e P size sub b zarr disk g ct x y sg j u v Hs Hsub HP H Hg Ho) as HL. cbv zeta in HL.
      destruct (tile_at sg j) as [t|] eqn:Ht; [|done]. destruct HL as (H1 & H2 & ct' & H3 & H4). split; [done|]. split; [done|].
      subst here. rewrite <- H4. apply current_reflects; [done|done|]. destruct Hg as (k & _ & Hk). by eapply HC.
    Qed.
  End vr.
End reflect.

Lemma sr_full_reflects e (P : gargs -> Prop) sa r size b zarr disk g ct a dask :
  0 < size -> (forall a, P a -> known_args a) -> sr_clean e P size b zarr disk g ct -> ga_alg a = alg_name sa -> grid_rez e g a r ->
  (ga_regrid a = "update" -> ga_clear a = true) -> exn_of (g_grid sr_ops e g a dask) = None ->
  sr_reflects e (alg_name sa) r size b ct (st_of (g_grid sr_ops e g a dask)).
Proof.
  intros Hs HP H Ha Hr Hu Hx. eapply (sr_reflects_current e known_args); [done|done| |].
  - apply CH_grid; [by eapply clean_mono|by eapply simple_known|done].
  - intros k t' Ht'. pose proof (sr_full_current e P size b zarr disk sa r g ct a dask Hs HP H Ha Hr Hu Hx k) as HC. cbv zeta in HC.
    rewrite Ht' in HC. destruct (tile_at g k); [by destruct HC|done].
Qed.
Lemma sr_only_reflects e sa r size b zarr disk g ct a dask :
  0 < size -> sr_clean e (plain_args sa r) size b zarr disk g ct -> plain_args sa r a -> exn_of (g_grid sr_ops e g a dask) = None ->
  sr_reflects e (alg_name sa) r size b ct (st_of (g_grid sr_ops e g a dask)).
Proof.
  intros Hs H Ha Hx. eapply (sr_reflects_current e (plain_args sa r)); [intros a0 [H0 _]; by eapply simple_known|done| |].
  - by apply CH_grid.
  - intros k t' Ht'. pose proof (sr_only_current e size b zarr disk sa r g ct a dask Hs H Ha Hx k) as HC. cbv zeta in HC.
    rewrite Ht' in HC. destruct (tile_at g k); [by destruct HC|done].
Qed.
Lemma vr_full_reflects e (P : gargs -> Prop) sa r size sub b zarr disk g ct a dask :
  0 < size -> 0 < sub -> (forall a, P a -> known_args a) -> vr_clean e P size sub b zarr disk g ct -> plain_args sa r a ->
  (ga_regrid a = "update" -> ga_clear a = true) -> exn_of (g_grid vr_ops e g a dask) = None ->
  vr_reflects e (alg_name sa) r size sub ct (st_of (g_grid vr_ops e g a dask)).
Proof.
  intros Hs Hsub HP H Ha Hu Hx. eapply (vr_reflects_current e known_args); [done|done|done| |].
  - apply CH_grid; [by eapply clean_mono|destruct Ha; by eapply simple_known|done].
  - intros k sg' j t' Hg' Ht'. pose proof (vr_full_current e size sub b zarr disk Hs Hsub P sa r g ct a dask HP H Ha Hu Hx k) as HC. cbv zeta in HC.
    rewrite Hg' in HC. destruct (tile_at g k) as [sg|]; [|done]. specialize (HC j). rewrite Ht' in HC. destruct (tile_at sg j); [by destruct HC|done].
Qed.
Lemma vr_only_reflects e sa r size sub b zarr disk g ct a dask :
  0 < size -> 0 < sub -> vr_clean e (plain_args sa r) size sub b zarr disk g ct -> plain_args sa r a ->
  exn_of (g_grid vr_ops e g a dask) = None ->
  vr_reflects e (alg_name sa) r size sub ct (st_of (g_grid vr_ops e g a dask)).
Proof.
  intros Hs Hsub H Ha Hx. eapply (vr_reflects_current e (plain_args sa r)); [intros a0 [H0 _]; by eapply simple_known|done|done| |].
  - by apply CH_grid.
  - intros k sg' j t' Hg' Ht'. pose proof (vr_only_current e size sub b zarr disk Hs Hsub sa r g ct a dask H Ha Hx k) as HC. cbv zeta in HC.
    rewrite Hg' in HC. destruct (tile_at g k) as [sg|]; [|done]. specialize (HC j). rewrite Ht' in HC. destruct (tile_at sg j); [by destruct HC|done].
Qed.

(** ** The algorithm attribute *)
Lemma grid_alg {T} (O : tile_ops T) e (R : T -> T -> Prop) (Rrefl : forall t, R t t) (Rtrans : forall a b c : T, R a b -> R b c -> R a c)
    (Rgrid : forall t a, R t (st_of (op_grid O e t a).1)) (Rload : forall m t, R t (op_reload O m t))
    (Rstrip : forall t t' s q, R t t' -> op_strip O t' s q = op_strip O t s q) g a dask :
  origins O g -> exn_of (g_grid O e g a dask) = None -> m_algorithm (g_meta (st_of (g_grid O e g a dask))) = ga_alg a.
Proof.
  intros Ho Hx. destruct (gd_meta _ _ _ _ _ _ (grid_finished O e R Rrefl Rtrans Rgrid Rload Rstrip g a dask Ho Hx)) as (rz & -> & _). done.
Qed.
Lemma sr_clean_alg e (P : gargs -> Prop) size b zarr disk g ct : 0 < size -> (forall a, P a -> known_args a) -> sr_clean e P size b zarr disk g ct ->
  m_algorithm (g_meta g) = "" \/ exists a, P a /\ m_algorithm (g_meta g) = ga_alg a.
Proof.
  intros Hs HP. induction 1 as [|g ct d a H IH Hx|g ct inp a H IH Hx|g ct c H IH Hx|g ct a dask H IH Ha Hx|g ct layers rez nodata up g' o H IH Hq].
  - by left.
  - by rewrite (same_attrs_alg _ _ (add_attrs sr_ops g (GoodData d) a)).
  - by rewrite (same_attrs_alg _ _ (add_attrs sr_ops g inp a)).
  - by rewrite (same_attrs_alg _ _ (remove_attrs sr_ops g c)).
  - right. exists a. split; [done|].
    destruct (sr_clean_inv e (fun _ _ => True) P size b zarr disk Hs (fun a Pa => known_allows a (HP a Pa)) g ct H) as (_ & seen & ok & HI).
    apply (grid_alg sr_ops e tile_keeps tile_keeps_refl tile_keeps_trans (sr_grid_keeps e) sr_reload_keeps t_strip_keeps); [|done].
    by eapply root_origins.
  - by rewrite (query_meta _ _ _ _ _ _ _ _ _ Hq).
Qed.
Lemma vr_clean_alg e (P : gargs -> Prop) size sub b zarr disk g ct : vr_clean e P size sub b zarr disk g ct ->
  m_algorithm (g_meta g) = "" \/ exists a, P a /\ m_algorithm (g_meta g) = ga_alg a.
Proof.
  induction 1 as [|g ct d a H IH Hx|g ct inp a H IH Hx|g ct c H IH Hx|g ct a dask H IH Ha Hx|g ct layers rez nodata up g' o H IH Hq].
  - by left.
  - by rewrite (same_attrs_alg _ _ (add_attrs vr_ops g (GoodData d) a)).
  - by rewrite (same_attrs_alg _ _ (add_attrs vr_ops g inp a)).
  - by rewrite (same_attrs_alg _ _ (remove_attrs vr_ops g c)).
  - right. exists a. split; [done|].
    apply (grid_alg vr_ops e sub_keeps sub_keeps_refl sub_keeps_trans (vr_grid_keeps e) vr_reload_keeps g_strip_keeps); [|done].
    apply vr_origins.
  - by rewrite (query_meta _ _ _ _ _ _ _ _ _ Hq).
Qed.
Lemma alg_mismatch {T} (g : grid T) (P : gargs -> Prop) a alg : (forall a, P a -> ga_alg a = alg) -> ga_alg a = alg ->
  (m_algorithm (g_meta g) = "" \/ exists a, P a /\ m_algorithm (g_meta g) = ga_alg a) -> mismatch g a = false.
Proof.
  intros HP Ha H. unfold mismatch. destruct H as [->|(a0 & H0 & ->)]; [done|].
  rewrite (HP a0 H0), Ha. by rewrite (bool_decide_eq_true_2 (alg = alg)), andb_false_r by done.
Qed.
