(** Asking a gridded grid for a container. *)
From Coq Require Import Lqa.
From Verif Require Import Py Nd Numpy Point Bin Algorithms Tile Time Meta Disk Grid GridRun GridQuery GridOps Spec TileExec GridExec WholeSpec PyFacts NdFacts NumpyFacts AlgFacts BinFacts
  MiscFacts TileFacts TileGridFacts TileSpecFacts TileRunFacts TileHistFacts ShoalFacts TilePropFacts TileQueryFacts GridBaseFacts GridPlaceFacts GridInvFacts GridRootFacts
  GridEvolveFacts GridSrFacts GridPropFacts GridHistFacts GridRunFacts GridCleanFacts GridUpdateFacts GridDensityFacts GridFlagFacts GridLayerFacts GridReadFacts GridAnswerFacts GridWholeFacts.
Open Scope Z_scope.
Local Ltac Zify.zify_post_hook ::= Z.div_mod_to_equations.

(** ** One tile *)
Lemma current_run e t sa r ct c d : good e t -> current e sa r t -> tile_rep t ct -> (c, d) ∈ ct ->
  run_simple_container sa t r c =
    Ok (set_layers t r (dset (dset (layers_at t r) c (depth_spec t sa r pz d)) (c +:+ "_density") (density_spec t r d))).
Proof.
  intros HG HC HR Hc. pose proof (cu_rez _ _ _ _ HC) as Hr. unfold run_simple_container.
  pose proof (rep_container t ct c d HR Hc) as (l1 & l3 & Hpts & Hcont).
  destruct (t_data t) as [dt|] eqn:Hd.
  2:{ exfalso. apply (tr_none _ _ HR) in Hd. subst ct. by apply elem_of_nil in Hc. }
  rewrite Hcont. cbn [rofopt rbind fst snd].
  pose proof (cu_depth _ _ _ _ HC) as HD. unfold layer_of in HD. destruct (dget (t_cells t) r) as [l|] eqn:Hl; [|done].
  rewrite (layers_at_get t r l Hl), HD. cbn [rofopt rbind].
  destruct (g_cells _ _ HG r l Hl) as (_ & _ & _ & _ & alg & _ & _ & _ & Hshape).
  apply Hshape in HD. rewrite !(blank_shape _ _ _ _ HD). rewrite (cu_idx _ _ _ _ HC). cbn [rofopt rbind].
  assert (E : dt = pts t) by (unfold pts; by rewrite Hd). rewrite E, Hpts.
  rewrite slice_mid. rewrite !map_app.
  rewrite <- (map_length (cellno t r) l1), <- (map_length (cellno t r) d), slice_mid.
  assert (HF : Forall (in_tile t) d).
  { pose proof (g_in _ _ HG) as HF. rewrite Hpts in HF. apply Forall_app in HF as [_ HF]. by apply Forall_app in HF as [HF _]. }
  destruct (fresh_out_ok (bare e) t sa r d (g_size _ _ HG) Hr HF) as [o Ho].
  destruct (fresh_out_spec (bare e) t sa r d o (g_size _ _ HG) Hr HF Ho) as (S1 & S2 & _ & _).
  unfold fresh_out in Ho. cbn [bare e_dt has_tvu has_thu opt_vals opt_grid] in Ho.
  rewrite Ho. cbn [rbind]. rewrite S1, S2. done.
Qed.

(** The points of container [c]; the cell value of algorithm [sa]. *)
Definition points_of (ct : content) (c : string) : list point := default [] (dget ct c).
Definition simple_cell (sa : simple_algorithm) (d : list point) : cell -> Prop :=
  match sa with Mean => mean_cell (map pz d) | Shoalest => least_cell (map pz d) end.

Lemma layer_of_depth e sa r t : current e sa r t -> exists l dg, dget (t_cells t) r = Some l /\ dget l (t_depth_key t) = Some dg.
Proof. intros HC. pose proof (cu_depth _ _ _ _ HC) as HD. unfold layer_of in HD. destruct (dget (t_cells t) r) as [l|]; [|done]. by exists l, (depth_spec t sa r pz (pts t)). Qed.

Lemma container_gives e (t : tile) sa r ct c x y n b up : good e t -> current e sa r t -> tile_rep t ct -> Forall (fun cp : string * list point => cp.2 <> []) ct -> at_square t x y (Z.of_nat n * r) b ->
  is_container_query c = true -> bool_decide (str_lower c = "depth") && up = false ->
  gives (t_get_layers_by_name e t c (Some r) None up) (fun t' => tile_keeps t t' /\ current e sa r t') x y r n n (points_of ct c) (simple_cell sa) (layer_nodata c None).
Proof.
  intros HG HC HR Hcne HQ Hq Hup. pose proof (cu_rez _ _ _ _ HC) as Hr. destruct (layer_of_depth _ _ _ _ HC) as (l & dg & Hl & Hdg).
  assert (Hq' : c ∉ float_layers ++ slope_layers ++ int_layers).
  { unfold is_container_query in Hq. apply negb_true_iff, bool_decide_eq_false in Hq. done. }
  rewrite !elem_of_app in Hq'.
  assert (Hno : layer_nodata c None = None) by (unfold layer_nodata; by rewrite bool_decide_eq_false_2 by tauto). rewrite Hno.
  assert (W0 : simple_cell sa [] None) by (destruct sa; by left).
  assert (Hstay : forall t' o, t_get_layers_by_name e t c (Some r) None up = Ok (t', o) -> tile_keeps t t' /\ current e sa r t').
  { intros t' o Ht. split; [by eapply t_query_keeps|]. eapply current_keeps; [by eapply t_query_keeps|intros; by eapply query_plain|by eapply t_query_run|intros [C1 C2 C3 C4 C5 C6 C7 C8]; by eapply query_slopes|done]. }
  destruct (t_is_empty t) eqn:He.
  { assert (Hz : points_of ct c = []).
    { rewrite (t_is_empty_rep _ _ HR) in He. apply bool_decide_eq_true in He. unfold points_of. destruct (dget ct c) as [d|] eqn:E; [|done]. cbn.
      apply dget_Some_elem in E. apply elem_of_list_split in E as (a1 & a2 & ->). unfold all_points in He. rewrite map_app, concat_app in He. cbn in He.
      apply app_eq_nil in He as [_ He]. by apply app_eq_nil in He as [He _]. }
    assert (Hres : t_get_layers_by_name e t c (Some r) None up = Ok (t, None)) by (unfold t_get_layers_by_name; by rewrite He).
    exists t, None. split; [done|]. split; [by eapply Hstay|]. rewrite Hz. split; [by split|]. intros R C _ _. exact W0. }
  assert (Hm : dmem (t_cells t) r = true) by (apply dmem_true, dget_is_Some; eauto).
  destruct (dget ct c) as [d|] eqn:Hct.
  - assert (Hin : (c, d) ∈ ct) by (by apply dget_Some_elem).
    assert (Hp : points_of ct c = d) by (unfold points_of; by rewrite Hct). rewrite Hp.
    pose proof (rep_container t ct c d HR Hin) as (l1 & l3 & Hpts & Hcont).
    assert (HF : Forall (in_tile t) d).
    { pose proof (g_in _ _ HG) as HF. rewrite Hpts in HF. apply Forall_app in HF as [_ HF]. by apply Forall_app in HF as [HF _]. }
    set (t2 := set_layers t r (dset (dset (layers_at t r) c (depth_spec t sa r pz d)) (c +:+ "_density") (density_spec t r d))).
    assert (Hres : t_get_layers_by_name e t c (Some r) None up = Ok (t2, present_layer (depth_spec t sa r pz d) (bool_decide (str_lower c = "depth")) up None)).
    { unfold t_get_layers_by_name. rewrite He, Hm. cbn [rbind]. unfold prepare_query. rewrite bool_decide_eq_false_2 by tauto. rewrite Hq.
      assert (Hmc : dmem (t_container t) c = true) by (apply dmem_true, dget_is_Some; eauto).
      rewrite Hmc, (cu_alg _ _ _ _ HC).
      assert (Hprep : (if bool_decide (Some (alg_name sa) = Some "mean") then run_simple_container Mean t r c
        else if bool_decide (Some (alg_name sa) = Some "shoalest") then run_simple_container Shoalest t r c
        else if bool_decide (Some (alg_name sa) = Some "cube")
          then (if e_cube_enabled e then Raise IndexError else Raise EnvironmentError) else Ok t) =
        run_simple_container sa t r c) by (by destruct sa).
      rewrite Hprep, (current_run _ _ _ _ _ _ _ HG HC HR Hin). fold t2. cbn [rbind].
      assert (Hcc : c <> c +:+ "_density").
      { intros H. apply (f_equal String.length) in H. rewrite str_length_app in H. cbn in H. lia. }
      unfold t2 at 1. rewrite layers_at_set, dget_dset_ne, dget_dset_eq by done. cbn [rofopt rbind]. by rewrite Hno. }
    assert (Hn : ncell t r = n). { destruct HQ as (_ & _ & HQ & _). unfold ncell. rewrite HQ, ceil_div_mult by done. by rewrite Nat2Z.id. }
    eapply (present_gives _ _ t2 (bool_decide (str_lower c = "depth"))); [exact Hr| | |exact W0| |exact Hup| |exact Hres|by eapply Hstay].
    + eapply Forall_impl; [exact HF|]. intros p. unfold in_tile. by destruct HQ as (-> & -> & -> & _).
    + rewrite Forall_forall in Hcne. exact (Hcne _ Hin).
    + intros d' v Hd'. destruct sa; [apply mean_full|apply least_full]; by apply map_ne.
    + rewrite <- Hn. destruct sa; cbn [simple_cell].
      * eapply layer_impl; [apply depth_spec_mean|]. intros row col v _ _. cbv beta. by rewrite (tile_cell_square _ _ _ _ _ _ _ _ _ HQ).
      * eapply layer_impl; [apply depth_spec_least|]. intros row col v _ _. cbv beta. by rewrite (tile_cell_square _ _ _ _ _ _ _ _ _ HQ).
  - assert (Hp : points_of ct c = []) by (unfold points_of; by rewrite Hct). rewrite Hp.
    assert (Hmc : dmem (t_container t) c = false).
    { apply dmem_false. rewrite (tr_cont _ _ HR), ranges_keys. intros [v Hv]%dget_is_Some. congruence. }
    assert (Hres : t_get_layers_by_name e t c (Some r) None up = Ok (set_layer t r c (blank dg None), None)).
    { unfold t_get_layers_by_name. rewrite He, Hm. cbn [rbind]. unfold prepare_query. rewrite bool_decide_eq_false_2 by tauto. rewrite Hq, Hmc.
      unfold set_layer. rewrite (layers_at_get t r l Hl), Hdg. cbn [rofopt rbind]. rewrite layers_at_set, dget_dset_eq. cbn [rofopt rbind].
      rewrite Hno. unfold present_layer. replace (all_nan (blank dg None)) with true; [done|]. symmetry. unfold all_nan, blank, nd_full. cbn [nflat].
      apply forallb_forall. intros v Hv%elem_of_list_In%elem_of_replicate. by destruct Hv as [-> _]. }
    eexists _, None. split; [exact Hres|]. split; [by eapply Hstay|]. split; [done|]. intros R C _ _. exact W0.
Qed.

(** ** Queries keep every tile current *)
Definition still (e : env) (t t' : tile) : Prop := forall sa r, current e sa r t -> current e sa r t'.
Lemma still_query e t layer r nodata up t' o : t_get_layers_by_name e t layer (Some r) nodata up = Ok (t', o) -> still e t t'.
Proof. intros H sa r'. apply current_keeps; [by eapply t_query_keeps|intros; by eapply query_plain|by eapply t_query_run|intros [C1 C2 C3 C4 C5 C6 C7 C8]; by eapply query_slopes]. Qed.
Definition all_now (e : env) (sa : simple_algorithm) (r : Z) (g : sr_grid) : Prop := forall k t, tile_at g k = Some t -> current e sa r t.
Lemma evolve_at {T} (R : T -> T -> Prop) (g g' : grid T) k t' : evolve R g g' -> tile_at g' k = Some t' -> exists t, tile_at g k = Some t /\ R t t'.
Proof.
  intros E Ht. pose proof (ev_tiles _ _ _ E) as HF. unfold tile_at in *. destruct (g_tiles g) as [ta|], (g_tiles g') as [tb|]; [|done..].
  destruct HF as (_ & _ & HF). destruct (nflat tb !! k) as [[tk|]|] eqn:Ek; [|done..]. injection Ht as ->.
  destruct (Forall2_lookup_r _ _ _ _ _ HF Ek) as ([ta0|] & -> & ?); [|done]. eauto.
Qed.
Lemma sr_query_now e g layers rez nodata up g' o sa r : g_get_layers_by_name sr_ops e g layers rez nodata up = Ok (g', o) -> all_now e sa r g -> all_now e sa r g'.
Proof.
  intros H HA k t' Ht'. assert (E : evolve (still e) g g').
  { eapply (evolve_query sr_ops e (still e)); [by intros t sa' r'|intros t1 t2 t3 H1 H2 sa' r' H3; by apply H2, H1| |exact H].
    intros t l r0 nd u t2 o2 Hq. exact (still_query _ _ _ _ _ _ _ _ Hq). }
  destruct (evolve_at _ _ _ _ _ E Ht') as (t & Ht & HS). by apply HS, (HA k).
Qed.
Lemma sr_queried_now e g g' sa r : queried sr_ops e g g' -> all_now e sa r g -> all_now e sa r g'.
Proof. induction 1 as [|g1 g2 layers rez nodata up o H IH Hq]; [done|]. intros HA. eapply sr_query_now; [exact Hq|by apply IH]. Qed.
Lemma vr_query_now e (g : vr_grid) layers rez nodata up g' o sa r : g_get_layers_by_name vr_ops e g layers rez nodata up = Ok (g', o) ->
  (forall k sg, tile_at g k = Some sg -> all_now e sa r sg) -> forall k sg, tile_at g' k = Some sg -> all_now e sa r sg.
Proof.
  intros H HA k sg' Ht'. assert (E : evolve (fun sg sg' => all_now e sa r sg -> all_now e sa r sg') g g').
  { eapply (evolve_query vr_ops e); [by intros t|intros t1 t2 t3 H1 H2 H3; by apply H2, H1| |exact H].
    intros sg l r' n u sg2 o2 Hq. cbn [op_get_layer vr_ops grid_ops] in Hq. unfold g_get_layer in Hq.
    apply rbind_Ok in Hq as ([g1 o1] & H1 & Hq). cbn [fst snd] in Hq.
    assert (g1 = sg2) as ->. { destruct o1 as [l1|]; [|by injection Hq as <- _]. apply rbind_Ok in Hq as (a & _ & Hq). by injection Hq as <- _. }
    by eapply sr_query_now. }
  destruct (evolve_at _ _ _ _ _ E Ht') as (sg & Ht & HS). by apply HS, (HA k).
Qed.
Lemma vr_queried_now e (g g' : vr_grid) sa r : queried vr_ops e g g' ->
  (forall k sg, tile_at g k = Some sg -> all_now e sa r sg) -> forall k sg, tile_at g' k = Some sg -> all_now e sa r sg.
Proof. induction 1 as [|g1 g2 layers rez nodata up o H IH Hq]; [done|]. intros HA. eapply vr_query_now; [exact Hq|by apply IH]. Qed.
Lemma queried_clean {T} (O : tile_ops T) e P g0 g g' ct : queried O e g g' -> clean_history O e P g0 g ct -> clean_history O e P g0 g' ct.
Proof. induction 1 as [|g1 g2 layers rez nodata up o H IH Hq]; [done|]. intros HA. eapply CH_query; [by apply IH|exact Hq]. Qed.
Lemma queried_meta {T} (O : tile_ops T) e (g g' : grid T) : queried O e g g' -> g_meta g' = g_meta g.
Proof. induction 1 as [|g1 g2 layers rez nodata up o H IH Hq]; [done|]. by rewrite (query_meta _ _ _ _ _ _ _ _ _ Hq). Qed.

(** ** The points of one container in a square *)
Lemma points_of_in x y s ct c : NoDup ct.*1 -> points_of (content_in x y s ct) c = filter (fun p => in_square x y s (px p) (py p)) (points_of ct c).
Proof.
  unfold points_of, content_in. induction ct as [|[k d] ct IH]; [done|]. csimpl. intros [Hk Hnd]%NoDup_cons. rewrite filter_cons. cbn [fst snd].
  destruct (decide (c = k)) as [->|Hne].
  - assert (E : dget ct k = None) by (by apply dget_None).
    destruct (decide _) as [Hd|Hd]; cbn [dget].
    + by rewrite decide_True.
    + rewrite IH by done. rewrite E. apply dec_stable in Hd. by symmetry.
  - destruct (decide _) as [Hd|Hd]; cbn [dget]; [rewrite decide_False by done|]; by apply IH.
Qed.

Lemma points_of_sub ct c (Q : point -> Prop) : Forall Q (all_points ct) -> Forall Q (points_of ct c).
Proof.
  intros H. unfold points_of. destruct (dget ct c) as [d|] eqn:E; [|constructor]. apply dget_Some_elem in E. cbn. rewrite Forall_forall in *. intros p Hp. apply H.
  apply elem_of_list_split in E as (a1 & a2 & ->). unfold all_points. rewrite map_app, concat_app. cbn. rewrite !elem_of_app. tauto.
Qed.
Lemma points_of_elem ct c d : NoDup ct.*1 -> (c, d) ∈ ct -> points_of ct c = d.
Proof. intros HN H. unfold points_of. by rewrite (dget_elem_NoDup ct c d HN H). Qed.
Lemma container_nodata c : is_container_query c = true -> layer_nodata c None = None.
Proof.
  intros Hq. unfold is_container_query in Hq. apply negb_true_iff, bool_decide_eq_false in Hq. rewrite !elem_of_app in Hq.
  unfold layer_nodata. by rewrite bool_decide_eq_false_2 by tauto.
Qed.

(** What asking for container [c] does to a grid that has been gridded with [sa] at [r]. *)
Definition container_answer {T} (O : tile_ops T) (e : env) (sa : simple_algorithm) (r : Z) (ct : content) (g : grid T) (c : string) (up : bool) (g' : grid T) : Prop :=
  (forall d, (c, d) ∈ ct -> answers_to O e g c r up d (simple_cell sa) g') /\
  (c ∉ ct.*1 -> g_get_layers_by_name O e g [c] (Some r) None up = Ok (g', None)).

Lemma sr_container_answer e sa r size b zarr disk g ct c up :
  0 < size -> sr_clean e known_args size b zarr disk g ct -> ct <> [] -> all_now e sa r g -> 0 < r -> size mod r = 0 ->
  is_container_query c = true -> eff_up (g_meta g) up = false \/ str_lower c <> "depth" ->
  exists g', queried sr_ops e g g' /\ container_answer sr_ops e sa r ct g c up g'.
Proof.
  intros Hs H Hne HC Hr Hm Hq Hup.
  destruct (sr_frame _ _ _ _ _ _ _ _ Hs (fun _ h => h) H Hne) as (lx & ly & nx & ny & HF).
  destruct (sr_clean_inv e (fun _ _ => True) known_args size b zarr disk Hs known_allows g ct H) as (_ & seen & ok & HI).
  set (n := Z.to_nat (size / r)). assert (Hn : size = Z.of_nat n * r). { unfold n. rewrite Z2Nat.id by (apply Z.div_pos; lia). pose proof (Z.div_mod size r). lia. }
  assert (Hn0 : (0 < n)%nat) by (destruct n; lia). clearbody n.
  pose proof (rb_nodup _ _ _ (proj1 HI)) as HN.
  assert (Hg : g_no_grid sr_ops g = Ok false).
  { apply sr_no_grid_false.
    - intros k t Ht. destruct (layer_of_depth _ _ _ _ (HC k t Ht)) as (l & dg & Hl & _). by destruct (t_cells t).
    - destruct (fr_live _ _ _ _ _ _ _ HF) as (k & t & Ht). unfold tile_at in Ht. by destruct (g_tiles g). }
  assert (Hup' : bool_decide (str_lower c = "depth") && eff_up (g_meta g) up = false).
  { destruct Hup as [->|Hup]; [apply andb_false_r|by rewrite bool_decide_eq_false_2]. }
  assert (W0 : simple_cell sa [] (layer_nodata c None)) by (rewrite container_nodata by done; destruct sa; by left).
  pose proof (points_of_sub ct c) as Hsub. pose proof (fr_points _ _ _ _ _ _ _ HF) as Hpts.
  subst size.
  destruct (whole_query sr_ops e g r c None up nx ny n lx ly (points_of ct c) (simple_cell sa) (fun t t' => tile_keeps t t' /\ current e sa r t')) as (g' & o & Q & K & D & A); try done.
  - by apply (fr_box _ _ _ _ _ _ _ HF).
  - intros Hd. apply rect_live; [done| |done]. apply Forall_fmap. apply Hsub. exact (proj1 (Forall_fmap xy_of _ (all_points ct)) Hpts).
  - intros k Hk. pose proof (fr_slot _ _ _ _ _ _ _ HF k Hk) as Ho. pose proof (root_loc _ _ _ _ _ _ _ _ _ HI Ho) as Hl. cbn [m_tile_size new_sr_meta new_meta] in Hl.
    rewrite <- points_of_in by done. destruct (tile_at g k) as [t|] eqn:Ht; cbn in Hl.
    + destruct Hl as (_ & (HR & (f & HT) & _)). destruct HR as (_ & HR & _). destruct (steps_good _ _ _ _ _ _ _ _ _ Hs HT) as [HG HQ].
      cbn [op_get_layer sr_ops]. eapply container_gives; try done; [by eapply HC|apply content_in_nonempty].
    + by rewrite Hl.
  - exists g'. split; [eapply Q_more; [apply Q_none|exact Q]|]. split.
    + intros d Hd. rewrite (points_of_elem _ _ _ HN Hd) in *.
      assert (Hdn : d <> []). { pose proof (rb_full _ _ _ (proj1 HI)) as Hn1. rewrite Forall_forall in Hn1. exact (Hn1 _ Hd). }
      destruct o as [arr|]; [|exfalso; by apply (proj1 D)].
      destruct A as (A1 & A2 & A3 & A4). eexists _, arr. split; [apply (fr_ext _ _ _ _ _ _ _ HF)|]. split; [exact Q|].
      split; [exact A1|]. rewrite A2, A3. cbn [x0 x1 y0 y1]. split; [rewrite !Nat2Z.inj_mul; ring|]. split; [rewrite !Nat2Z.inj_mul; ring|]. exact A4.
    + intros Hd. assert (E : points_of ct c = []) by (unfold points_of; by rewrite (proj2 (dget_None ct c) Hd)).
      destruct o as [arr|]; [|exact Q]. exfalso. by apply (proj2 D).
Qed.

Lemma vr_container_answer e sa r size sub b zarr disk (g : vr_grid) ct c up :
  0 < size -> 0 < sub -> vr_clean e known_args size sub b zarr disk g ct -> ct <> [] ->
  (forall k sg, tile_at g k = Some sg -> all_now e sa r sg) -> 0 < r -> size mod sub = 0 -> sub mod r = 0 ->
  is_container_query c = true -> eff_up (g_meta g) up = false \/ str_lower c <> "depth" ->
  exists g', queried vr_ops e g g' /\ container_answer vr_ops e sa r ct g c up g'.
Proof.
  intros Hs Hsub H Hne HC Hr Hm1 Hm2 Hq Hup.
  destruct (vr_frame _ _ _ _ _ _ _ _ _ Hs Hsub Hm1 (fun _ h => h) H Hne) as (lx & ly & nx & ny & HF & HS).
  destruct (vr_clean_inv e (fun _ _ => True) known_args size sub b zarr disk Hs Hsub (fun a Pa => known_allows a Pa) g ct H) as (_ & seen & ok & HI).
  set (m := Z.to_nat (size / sub)) in *. assert (Hm : size = Z.of_nat m * sub). { unfold m. rewrite Z2Nat.id by (apply Z.div_pos; lia). pose proof (Z.div_mod size sub). lia. }
  set (n := Z.to_nat (sub / r)). assert (Hn : sub = Z.of_nat n * r). { unfold n. rewrite Z2Nat.id by (apply Z.div_pos; lia). pose proof (Z.div_mod sub r). lia. }
  assert (Hn0 : (0 < n)%nat) by (destruct n; lia). assert (Hm0 : (0 < m)%nat) by (destruct m; lia). clearbody m n.
  pose proof (rb_nodup _ _ _ (proj1 HI)) as HN.
  assert (Hcells : forall k sg j t, tile_at g k = Some sg -> tile_at sg j = Some t -> t_cells t <> []).
  { intros k sg j t Hk Hj. destruct (layer_of_depth _ _ _ _ (HC k sg Hk j t Hj)) as (l & dg & Hl & _). by destruct (t_cells t). }
  assert (Hg : g_no_grid vr_ops g = Ok false).
  { apply vr_no_grid_false.
    - destruct (fr_live _ _ _ _ _ _ _ HF) as (k & t & Ht). unfold tile_at in Ht. by destruct (g_tiles g).
    - intros k sg Hk. split; [|intros j t Hj; by eapply Hcells].
      destruct (sf_live _ _ _ _ _ (HS k sg Hk)) as (j & t & Hj). exists t. by eapply tile_at_live. }
  assert (Hgs : forall k sg, tile_at g k = Some sg -> g_no_grid sr_ops sg = Ok false).
  { intros k sg Hk. apply sr_no_grid_false; [intros j t Hj; by eapply Hcells|].
    destruct (sf_live _ _ _ _ _ (HS k sg Hk)) as (j & t & Ht). unfold tile_at in Ht. by destruct (g_tiles sg). }
  assert (Hup' : bool_decide (str_lower c = "depth") && eff_up (g_meta g) up = false).
  { destruct Hup as [->|Hup]; [apply andb_false_r|by rewrite bool_decide_eq_false_2]. }
  assert (W0 : simple_cell sa [] (layer_nodata c None)) by (rewrite container_nodata by done; destruct sa; by left).
  pose proof (fr_points _ _ _ _ _ _ _ HF) as Hpts.
  destruct (vr_whole e g ct (points_of ct c) size sub m n r c None up (simple_cell sa) (fun t t' => tile_keeps t t' /\ current e sa r t') lx ly nx ny)
    as (g' & o & Q & K & D & A); try done.
  - rewrite Hm, Hn, Nat2Z.inj_mul. ring.
  - apply Forall_fmap, points_of_sub. exact (proj1 (Forall_fmap xy_of _ (all_points ct)) Hpts).
  - intros k x y Ho. pose proof (root_loc _ _ _ _ _ _ _ _ _ HI Ho) as Hl. cbn [m_tile_size new_vr_meta new_meta] in Hl.
    rewrite <- points_of_in by done. destruct (tile_at g k) as [sg|] eqn:Hk; cbn in Hl; [|by rewrite Hl].
    destruct Hl as (Hcx & HR & _). intros j u v Hj. cbv zeta. rewrite <- points_of_in by (by apply content_in_nodup).
    assert (HL : slot_ok (steps_rep e (fun _ _ => True) sub false (m_algorithm (g_meta sg))) u v (content_in u v sub (content_in x y size ct)) (tile_at sg j)).
    { destruct HR as [_ [(H1 & Hz & _)|(_ & a & HPl & _)]]; [done|]. exact (placed_loc _ _ _ _ _ _ _ _ _ _ _ _ HPl Hj). }
    destruct (tile_at sg j) as [t|] eqn:Ht; cbn in HL; [|by rewrite HL].
    destruct HL as (_ & (HRt & (f & HT) & _)). destruct HRt as (_ & HRt & _). destruct (steps_good _ _ _ _ _ _ _ _ _ Hsub HT) as [HG HQ].
    eapply (container_gives _ _ _ _ _ _ _ _ _ false); try done; [by eapply (HC k sg)|apply content_in_nonempty|by rewrite <- Hn].
  - exists g'. split; [eapply Q_more; [apply Q_none|exact Q]|]. split.
    + intros d Hd. rewrite (points_of_elem _ _ _ HN Hd) in *.
      assert (Hdn : d <> []). { pose proof (rb_full _ _ _ (proj1 HI)) as Hn1. rewrite Forall_forall in Hn1. exact (Hn1 _ Hd). }
      destruct o as [arr|]; [|exfalso; by apply (proj1 D)].
      destruct A as (A1 & A2 & A3 & A4). eexists _, arr. split; [apply (fr_ext _ _ _ _ _ _ _ HF)|]. split; [exact Q|].
      split; [exact A1|]. rewrite A2, A3. cbn [x0 x1 y0 y1]. split; [rewrite Hm, Hn, !Nat2Z.inj_mul; ring|]. split; [rewrite Hm, Hn, !Nat2Z.inj_mul; ring|]. exact A4.
    + intros Hd. assert (E : points_of ct c = []) by (unfold points_of; by rewrite (proj2 (dget_None ct c) Hd)).
      destruct o as [arr|]; [|exact Q]. exfalso. by apply (proj2 D).
Qed.

(** ** Slopes *)
Lemma slope_now e t sa r : good e t -> current e sa r t -> exists sx sy, slopes_of e t r = Ok (sx, sy) /\
  layer_is (ncell t r) sx (fun row col => slope_cell e "x_slope" (tile_cell t r row col (pts t))) /\
  layer_is (ncell t r) sy (fun row col => slope_cell e "y_slope" (tile_cell t r row col (pts t))).
Proof.
  intros HG HC. pose proof (cu_rez _ _ _ _ HC) as Hr.
  destruct (slopes_spec (argsort (map (cellno t r) (pts t))) e t r (pts t) (g_size _ _ HG) Hr (g_in _ _ HG) (argsort_sorting_perm _)) as (sx & sy & H & X & Y & Hc).
  exists sx, sy. split.
  { unfold slopes_of, calculate_slopes. rewrite !tile_edges_length, !Nat.sub_succ, !Nat.sub_0_r. exact H. }
  destruct X as (X1 & X2 & X3), Y as (Y1 & Y2 & Y3). unfold nd_wf in X1, Y1.
  split; repeat split; try congruence; intros row col Hrow Hcol;
    destruct (Hc row col Hrow Hcol) as [(E1 & E2 & E3)|(E1 & l' & E2 & E3 & E4)];
    eexists; (split; [eassumption|]); [left|right|left|right]; (split; [exact E1|]); try done; exists l'; done.
Qed.
Lemma slope_gives e (t : tile) sa r x y n b up l d : good e t -> current e sa r t -> t_data t = Some d -> d <> [] -> at_square t x y (Z.of_nat n * r) b ->
  l ∈ slope_layers -> gives (t_get_layers_by_name e t l (Some r) None up) (fun t' => tile_keeps t t' /\ current e sa r t') x y r n n d (slope_cell e l) (layer_nodata l None).
Proof.
  intros HG HC Hd Hne HQ Hl. pose proof (cu_rez _ _ _ _ HC) as Hr. destruct (layer_of_depth _ _ _ _ HC) as (ls & dg & Hls & _).
  assert (Hp : pts t = d) by (unfold pts; by rewrite Hd).
  assert (He : t_is_empty t = false) by (unfold t_is_empty, t_points_count; rewrite Hd; by destruct d).
  assert (Hm : dmem (t_cells t) r = true) by (apply dmem_true, dget_is_Some; eauto).
  assert (Hstay : forall t' o, t_get_layers_by_name e t l (Some r) None up = Ok (t', o) -> tile_keeps t t' /\ current e sa r t').
  { intros t' o Ht. split; [by eapply t_query_keeps|]. eapply current_keeps; [by eapply t_query_keeps|intros; by eapply query_plain|by eapply t_query_run|intros [C1 C2 C3 C4 C5 C6 C7 C8]; by eapply query_slopes|done]. }
  destruct (slope_now e t sa r HG HC) as (sx & sy & HS & X & Y).
  assert (Hrun : exists t2, run_slopes e t r = Ok t2 /\ dget (layers_at t2 r) "x_slope" = Some sx /\ dget (layers_at t2 r) "y_slope" = Some sy).
  { unfold run_slopes. destruct (dmem (layers_at t r) "x_slope") eqn:E.
    - apply dmem_true, dget_is_Some in E as [sx' E]. rewrite <- layer_of_at in E. destruct (cu_slope _ _ _ _ HC _ E) as (sy' & E' & HS'). rewrite HS in HS'. injection HS' as <- <-.
      exists t. rewrite <- !layer_of_at. done.
    - rewrite Hd, (cu_idx _ _ _ _ HC). destruct (cu_edges _ _ _ _ HC) as [-> ->]. cbn [rofopt rbind]. unfold slopes_of in HS. rewrite Hp in *. rewrite HS. cbn [rbind fst snd].
      eexists. split; [done|]. rewrite layers_at_set. rewrite dget_dset_ne, !dget_dset_eq by done. done. }
  destruct Hrun as (t2 & Hrun & R1 & R2).
  assert (Hno : layer_nodata l None = None).
  { unfold slope_layers in Hl. rewrite !elem_of_cons, elem_of_nil in Hl. by destruct Hl as [->|[->|[]]]. }
  assert (Hdp : bool_decide (str_lower l = "depth") = false).
  { unfold slope_layers in Hl. rewrite !elem_of_cons, elem_of_nil in Hl. by destruct Hl as [->|[->|[]]]; vm_compute. }
  assert (Hn : ncell t r = n). { destruct HQ as (_ & _ & HQ & _). unfold ncell. rewrite HQ, ceil_div_mult by done. by rewrite Nat2Z.id. }
  assert (Ha : exists a, dget (layers_at t2 r) l = Some a /\ layer_is n a (fun row col => slope_cell e l (points_in_cell x y r row col d))).
  { rewrite <- Hn. unfold slope_layers in Hl. rewrite !elem_of_cons, elem_of_nil in Hl. destruct Hl as [->|[->|[]]].
    - exists sx. split; [done|]. eapply layer_impl; [exact X|]. intros row col v _ _. cbv beta. by rewrite Hp, (tile_cell_square _ _ _ _ _ _ _ _ _ HQ).
    - exists sy. split; [done|]. eapply layer_impl; [exact Y|]. intros row col v _ _. cbv beta. by rewrite Hp, (tile_cell_square _ _ _ _ _ _ _ _ _ HQ). }
  destruct Ha as (a & Ha & HL).
  assert (Hres : t_get_layers_by_name e t l (Some r) None up = Ok (t2, present_layer a false up (layer_nodata l None))).
  { unfold t_get_layers_by_name. rewrite He, Hm. cbn [rbind]. unfold prepare_query. rewrite bool_decide_eq_true_2 by done. rewrite Hrun. cbn [rbind]. rewrite Ha. cbn [rofopt rbind]. by rewrite Hdp. }
  eapply (present_gives _ _ t2 false); [exact Hr| |exact Hne| | |done|exact HL|exact Hres|by eapply Hstay].
  - pose proof (g_in _ _ HG) as HF. rewrite Hp in HF. eapply Forall_impl; [exact HF|]. intros p. unfold in_tile. by destruct HQ as (-> & -> & -> & _).
  - rewrite Hno. by left.
  - intros d' v Hd' [[? _]|(_ & l' & _ & ->)]; done.
Qed.

Lemma sr_slope_answer e sa r size b zarr disk g ct l up :
  0 < size -> sr_clean e known_args size b zarr disk g ct -> ct <> [] -> all_now e sa r g -> 0 < r -> size mod r = 0 -> l ∈ slope_layers ->
  exists g', queried sr_ops e g g' /\ answers_to sr_ops e g l r up (all_points ct) (slope_cell e l) g'.
Proof.
  intros Hs H Hne HC Hr Hm Hl.
  destruct (sr_frame _ _ _ _ _ _ _ _ Hs (fun _ h => h) H Hne) as (lx & ly & nx & ny & HF).
  destruct (sr_clean_inv e (fun _ _ => True) known_args size b zarr disk Hs known_allows g ct H) as (_ & seen & ok & HI).
  set (n := Z.to_nat (size / r)). assert (Hn : size = Z.of_nat n * r). { unfold n. rewrite Z2Nat.id by (apply Z.div_pos; lia). pose proof (Z.div_mod size r). lia. }
  assert (Hn0 : (0 < n)%nat) by (destruct n; lia). clearbody n.
  assert (Hg : g_no_grid sr_ops g = Ok false).
  { apply sr_no_grid_false.
    - intros k t Ht. destruct (layer_of_depth _ _ _ _ (HC k t Ht)) as (ls & dg & Hls & _). by destruct (t_cells t).
    - destruct (fr_live _ _ _ _ _ _ _ HF) as (k & t & Ht). unfold tile_at in Ht. by destruct (g_tiles g). }
  assert (Hno : layer_nodata l None = None).
  { unfold slope_layers in Hl. rewrite !elem_of_cons, elem_of_nil in Hl. by destruct Hl as [->|[->|[]]]. }
  pose proof (fr_points _ _ _ _ _ _ _ HF) as Hpts.
  subst size.
  destruct (whole_query sr_ops e g r l None up nx ny n lx ly (all_points ct) (slope_cell e l) (fun t t' => tile_keeps t t' /\ current e sa r t')) as (g' & o & Q & K & D & A); try done.
  - by apply (fr_box _ _ _ _ _ _ _ HF).
  - rewrite Hno. by left.
  - intros Hd. by apply rect_live.
  - intros k Hk. pose proof (fr_slot _ _ _ _ _ _ _ HF k Hk) as Ho. pose proof (root_loc _ _ _ _ _ _ _ _ _ HI Ho) as Hc. cbn [m_tile_size new_sr_meta new_meta] in Hc.
    rewrite <- content_in_points. destruct (tile_at g k) as [t|] eqn:Ht; cbn in Hc; [|by rewrite Hc].
    destruct Hc as (Hcn & (HR & (f & HT) & _)). destruct HR as (_ & HR & _). destruct (steps_good _ _ _ _ _ _ _ _ _ Hs HT) as [HG HQ].
    cbn [op_get_layer sr_ops]. eapply slope_gives; try done; [by eapply HC|by apply rep_data|].
    rewrite all_points_nil_iff; [done|]. apply content_in_nonempty.
  - exists g'. split; [eapply Q_more; [apply Q_none|exact Q]|].
    assert (Hdn : all_points ct <> []) by (rewrite all_points_nil_iff; [done|exact (rb_full _ _ _ (proj1 HI))]).
    destruct o as [arr|]; [|exfalso; by apply (proj1 D)].
    destruct A as (A1 & A2 & A3 & A4). eexists _, arr. split; [apply (fr_ext _ _ _ _ _ _ _ HF)|]. split; [exact Q|].
    split; [exact A1|]. rewrite A2, A3. cbn [x0 x1 y0 y1]. split; [rewrite !Nat2Z.inj_mul; ring|]. split; [rewrite !Nat2Z.inj_mul; ring|]. exact A4.
Qed.

Lemma vr_slope_answer e sa r size sub b zarr disk (g : vr_grid) ct l up :
  0 < size -> 0 < sub -> vr_clean e known_args size sub b zarr disk g ct -> ct <> [] ->
  (forall k sg, tile_at g k = Some sg -> all_now e sa r sg) -> 0 < r -> size mod sub = 0 -> sub mod r = 0 -> l ∈ slope_layers ->
  exists g', queried vr_ops e g g' /\ answers_to vr_ops e g l r up (all_points ct) (slope_cell e l) g'.
Proof.
  intros Hs Hsub H Hne HC Hr Hm1 Hm2 Hl.
  destruct (vr_frame _ _ _ _ _ _ _ _ _ Hs Hsub Hm1 (fun _ h => h) H Hne) as (lx & ly & nx & ny & HF & HS).
  destruct (vr_clean_inv e (fun _ _ => True) known_args size sub b zarr disk Hs Hsub (fun a Pa => known_allows a Pa) g ct H) as (_ & seen & ok & HI).
  set (m := Z.to_nat (size / sub)) in *. assert (Hm : size = Z.of_nat m * sub). { unfold m. rewrite Z2Nat.id by (apply Z.div_pos; lia). pose proof (Z.div_mod size sub). lia. }
  set (n := Z.to_nat (sub / r)). assert (Hn : sub = Z.of_nat n * r). { unfold n. rewrite Z2Nat.id by (apply Z.div_pos; lia). pose proof (Z.div_mod sub r). lia. }
  assert (Hn0 : (0 < n)%nat) by (destruct n; lia). assert (Hm0 : (0 < m)%nat) by (destruct m; lia). clearbody m n.
  assert (Hcells : forall k sg j t, tile_at g k = Some sg -> tile_at sg j = Some t -> t_cells t <> []).
  { intros k sg j t Hk Hj. destruct (layer_of_depth _ _ _ _ (HC k sg Hk j t Hj)) as (ls & dg & Hls & _). by destruct (t_cells t). }
  assert (Hg : g_no_grid vr_ops g = Ok false).
  { apply vr_no_grid_false.
    - destruct (fr_live _ _ _ _ _ _ _ HF) as (k & t & Ht). unfold tile_at in Ht. by destruct (g_tiles g).
    - intros k sg Hk. split; [|intros j t Hj; by eapply Hcells].
      destruct (sf_live _ _ _ _ _ (HS k sg Hk)) as (j & t & Hj). exists t. by eapply tile_at_live. }
  assert (Hgs : forall k sg, tile_at g k = Some sg -> g_no_grid sr_ops sg = Ok false).
  { intros k sg Hk. apply sr_no_grid_false; [intros j t Hj; by eapply Hcells|].
    destruct (sf_live _ _ _ _ _ (HS k sg Hk)) as (j & t & Ht). unfold tile_at in Ht. by destruct (g_tiles sg). }
  assert (Hno : layer_nodata l None = None).
  { unfold slope_layers in Hl. rewrite !elem_of_cons, elem_of_nil in Hl. by destruct Hl as [->|[->|[]]]. }
  destruct (vr_whole e g ct (all_points ct) size sub m n r l None up (slope_cell e l) (fun t t' => tile_keeps t t' /\ current e sa r t') lx ly nx ny)
    as (g' & o & Q & K & D & A); try done.
  - rewrite Hm, Hn, Nat2Z.inj_mul. ring.
  - rewrite Hno. by left.
  - apply (fr_points _ _ _ _ _ _ _ HF).
  - intros k x y Ho. pose proof (root_loc _ _ _ _ _ _ _ _ _ HI Ho) as Hc. cbn [m_tile_size new_vr_meta new_meta] in Hc.
    rewrite <- content_in_points. destruct (tile_at g k) as [sg|] eqn:Hk; cbn in Hc; [|by rewrite Hc].
    destruct Hc as (Hcx & HR & _). intros j u v Hj. cbv zeta. rewrite <- content_in_points.
    assert (HL : slot_ok (steps_rep e (fun _ _ => True) sub false (m_algorithm (g_meta sg))) u v (content_in u v sub (content_in x y size ct)) (tile_at sg j)).
    { destruct HR as [_ [(H1 & Hz & _)|(_ & a & HPl & _)]]; [done|]. exact (placed_loc _ _ _ _ _ _ _ _ _ _ _ _ HPl Hj). }
    destruct (tile_at sg j) as [t|] eqn:Ht; cbn in HL; [|by rewrite HL].
    destruct HL as (Hcn & (HRt & (f & HT) & _)). destruct HRt as (_ & HRt & _). destruct (steps_good _ _ _ _ _ _ _ _ _ Hsub HT) as [HG HQ].
    eapply (slope_gives _ _ _ _ _ _ _ false); try done; [by eapply (HC k sg)|by apply rep_data| |by rewrite <- Hn].
    rewrite all_points_nil_iff; [done|]. apply content_in_nonempty.
  - exists g'. split; [eapply Q_more; [apply Q_none|exact Q]|].
    assert (Hdn : all_points ct <> []) by (rewrite all_points_nil_iff; [done|exact (rb_full _ _ _ (proj1 HI))]).
    destruct o as [arr|]; [|exfalso; by apply (proj1 D)].
    destruct A as (A1 & A2 & A3 & A4). eexists _, arr. split; [apply (fr_ext _ _ _ _ _ _ _ HF)|]. split; [exact Q|].
    split; [exact A1|]. rewrite A2, A3. cbn [x0 x1 y0 y1]. split; [rewrite Hm, Hn, !Nat2Z.inj_mul; ring|]. split; [rewrite Hm, Hn, !Nat2Z.inj_mul; ring|]. exact A4.
Qed.

(** ** Right after gridding *)
Section after_grid.
  Context (e : env) (sa : simple_algorithm) (r : Z) (a : gargs) (dask : option nat) (ct : content).
  Context (Ha : only_args (alg_name sa) r a) (Hu : ga_regrid a = "update" -> ga_clear a = true).
  Lemma after_known : known_args a.
  Proof using Ha. destruct Ha as [Ha' _]. by eapply simple_known. Qed.
  Lemma sr_after size b zarr disk g g' : 0 < size -> sr_clean e known_args size b zarr disk g ct -> exn_of (g_grid sr_ops e g a dask) = None ->
    queried sr_ops e (st_of (g_grid sr_ops e g a dask)) g' -> sr_clean e known_args size b zarr disk g' ct /\ all_now e sa r g'.
  Proof using Ha Hu.
    intros Hs H Hx Hq. split.
    - eapply queried_clean; [exact Hq|]. apply CH_grid; [done|apply after_known|done].
    - eapply sr_queried_now; [exact Hq|]. intros k t' Ht'. destruct Ha as [Ha1 Ha2].
      pose proof (sr_full_current e known_args size b zarr disk sa r g ct a dask Hs (fun _ h => h) H Ha1 ltac:(by apply given_rez) Hu Hx k) as HC. cbv zeta in HC.
      rewrite Ht' in HC. destruct (tile_at g k); [by destruct HC|done].
  Qed.
  Lemma vr_after size sub b zarr disk g g' : 0 < size -> 0 < sub -> vr_clean e known_args size sub b zarr disk g ct -> exn_of (g_grid vr_ops e g a dask) = None ->
    queried vr_ops e (st_of (g_grid vr_ops e g a dask)) g' ->
    vr_clean e known_args size sub b zarr disk g' ct /\ forall k sg, tile_at g' k = Some sg -> all_now e sa r sg.
  Proof using Ha Hu.
    intros Hs Hsub H Hx Hq. split.
    - eapply queried_clean; [exact Hq|]. apply CH_grid; [done|apply after_known|done].
    - eapply vr_queried_now; [exact Hq|]. intros k sg' Hg' j t' Ht'.
      pose proof (vr_full_current e size sub b zarr disk Hs Hsub known_args sa r g ct a dask (fun _ h => h) H Ha Hu Hx k) as HC. cbv zeta in HC.
      rewrite Hg' in HC. destruct (tile_at g k) as [sg|]; [|done]. specialize (HC j). rewrite Ht' in HC. destruct (tile_at sg j); [by destruct HC|done].
  Qed.
End after_grid.
Lemma queried_trans {T} (O : tile_ops T) e g1 g2 g3 : queried O e g1 g2 -> queried O e g2 g3 -> queried O e g1 g3.
Proof. intros H1 H2. induction H2; [done|]. by eapply Q_more. Qed.
