(** Properties of grids as containers of soundings: C04-C08, C11-C15, C34, C49, C75. *)
From Coq Require Import Lqa.
From Verif Require Import Py Nd Numpy Point Bin Algorithms Tile Time Meta Disk Grid GridRun GridQuery GridOps
  Spec TileExec GridExec Samples GridSamples PyFacts NdFacts NumpyFacts AlgFacts BinFacts TileFacts TileGridFacts TileRunFacts TileHistFacts
  GridBaseFacts GridPlaceFacts GridInvFacts GridRootFacts GridEvolveFacts GridSrFacts GridPropFacts GridHistFacts.
Open Scope Z_scope.

Example sr_1_history : sr_history env_s 8 false false true sr_1 [("one", pts_one)] pts_one true.
Proof. apply (GH_add _ _ _ _ [] [] true pts_one (args_of "one") (GH_new _ _ _)). by vm_compute. Qed.
Example sr_2_history : sr_history env_s 8 false false true sr_2 ct_2 (pts_one ++ pts_two) true.
Proof. apply (GH_add _ _ _ _ _ _ _ pts_two (args_of "two") sr_1_history). by vm_compute. Qed.
Example vr_1_history : vr_history env_s 16 5 false false true vr_1 [("one", pts_one)] pts_one true.
Proof. apply (GH_add _ _ _ _ [] [] true pts_one (args_of "one") (GH_new _ _ _)). by vm_compute. Qed.
Example vr_2_history : vr_history env_s 16 5 false false true vr_2 ct_2 (pts_one ++ pts_two) true.
Proof. apply (GH_add _ _ _ _ _ _ _ pts_two (args_of "two") vr_1_history). by vm_compute. Qed.

(** ** C04 *)
Theorem C04_sr_points_in_tile e size b zarr disk g ct seen ok t p :
  0 < size -> sr_history e size b zarr disk g ct seen ok -> t ∈ live_tiles g -> p ∈ default [] (t_data t) ->
  t_min_x t <= px p < t_max_x t /\ t_min_y t <= py p < t_max_y t.
Proof.
  intros Hs H (k & Ht)%live_tile_at Hp. destruct (sr_tile_place e size b zarr disk Hs _ _ _ _ _ _ H Ht) as (Ho & Hz & _).
  pose proof (sr_location e size b zarr disk Hs _ _ _ _ _ _ _ H Ho) as Hl. rewrite Ht in Hl. destruct Hl as [Hd _].
  rewrite Hd in Hp. cbn in Hp. apply elem_of_list_filter in Hp as [Hin _]. unfold t_max_x, t_max_y. by rewrite Hz.
Qed.
Print Assumptions C04_sr_points_in_tile.
Theorem C04_vr_points_in_tile e size sub b zarr disk g ct seen ok sg t p :
  0 < size -> 0 < sub -> vr_history e size sub b zarr disk g ct seen ok ->
  sg ∈ live_tiles g -> t ∈ live_tiles sg -> p ∈ default [] (t_data t) ->
  (t_min_x t <= px p < t_max_x t /\ t_min_y t <= py p < t_max_y t) /\
  exists x, m_ext (g_meta sg) = Some x /\ x0 x <= px p < x1 x /\ y0 x <= py p < y1 x.
Proof.
  intros Hs Hsub H (k & Hg)%live_tile_at (j & Ht)%live_tile_at Hp.
  pose proof (vr_inv e size sub b zarr disk Hs Hsub _ _ _ _ H) as HI.
  destruct (root_origin _ _ _ _ _ _ _ _ HI Hg) as (x & y & Ho).
  assert (Hh : has_tile g x y sg) by (by exists k).
  destruct (vr_subtile_place e size sub b zarr disk Hs Hsub _ _ _ _ _ _ _ _ _ H Hh Ht) as [Ho2 Hz].
  pose proof (vr_location e size sub b zarr disk Hs Hsub _ _ _ _ _ _ _ _ _ _ H Hh Ho2) as Hl. rewrite Ht in Hl.
  destruct Hl as [Hd _]. rewrite Hd in Hp. cbn in Hp. apply elem_of_list_filter in Hp as [[Hin1 Hin2] _].
  split; [unfold t_max_x, t_max_y; by rewrite Hz|].
  destruct (vr_sub_place e size sub b zarr disk Hs Hsub _ _ _ _ _ _ _ H Hh) as (He & _). eexists. split; [exact He|]. exact Hin1.
Qed.
Print Assumptions C04_vr_points_in_tile.
Example C04_case :
  map (fun t => (t_min_x t, t_min_y t, map xy_of (default [] (t_data t)))) (live_tiles sr_2) =
    [(-8, -8, [(-3, -8)]); (0, 0, [(1, 1); (3, 7)]); (8, 0, [(13, 2); (8, 0)])] /\
  map (fun sg => (m_name (g_meta sg), map (fun t => (t_min_x t, t_min_y t, map xy_of (default [] (t_data t)))) (live_tiles sg))) (live_tiles vr_2) =
    [(NTile (-16) (-16), [(-6, -11, [(-3, -8)])]);
     (NTile 0 0, [(0, 0, [(1, 1)]); (5, 0, [(8, 0)]); (10, 0, [(13, 2)]); (0, 5, [(3, 7)])])].
Proof. split; by vm_compute. Qed.

(** ** C05 *)
Theorem C05_sr_soundings e size b zarr disk g ct seen ok :
  0 < size -> sr_history e size b zarr disk g ct seen ok ->
  (forall k x y, origin_at g k = Some (x, y) ->
     let l := filter (fun p => in_square x y size (px p) (py p)) (all_points ct) in
     match tile_at g k with Some t => t_data t = Some l /\ l <> [] | None => l = [] end) /\
  (forall p, p ∈ all_points ct -> exists k x y, origin_at g k = Some (x, y) /\ in_square x y size (px p) (py p) /\
     forall k' x' y', origin_at g k' = Some (x', y') -> in_square x' y' size (px p) (py p) -> k' = k) /\
  (forall k t, tile_at g k = Some t -> is_Some (origin_at g k)).
Proof.
  intros Hs H. pose proof (sr_inv e size b zarr disk Hs _ _ _ _ H) as HI. split; [|split].
  - intros k x y. by eapply (sr_location e size b zarr disk).
  - intros p. exact (root_cover (new_sr_meta 0 0 size b zarr) _ Hs _ _ _ _ _ HI).
  - intros k t Ht. destruct (root_origin _ _ _ _ _ _ _ _ HI Ht) as (x & y & ->). by eexists.
Qed.
Print Assumptions C05_sr_soundings.
Theorem C05_vr_soundings e size sub b zarr disk g ct seen ok :
  0 < size -> 0 < sub -> vr_history e size sub b zarr disk g ct seen ok ->
  (forall k x y, origin_at g k = Some (x, y) ->
     (tile_at g k = None <-> filter (fun p => in_square x y size (px p) (py p)) (all_points ct) = [])) /\
  (forall x y sg j u v, has_tile g x y sg -> origin_at sg j = Some (u, v) ->
     let l := filter (fun p => in_square x y size (px p) (py p) /\ in_square u v sub (px p) (py p)) (all_points ct) in
     match tile_at sg j with Some t => t_data t = Some l /\ l <> [] | None => l = [] end) /\
  (forall p, p ∈ all_points ct -> exists k x y sg j u v t,
      origin_at g k = Some (x, y) /\ tile_at g k = Some sg /\ origin_at sg j = Some (u, v) /\ tile_at sg j = Some t /\
      in_square x y size (px p) (py p) /\ in_square u v sub (px p) (py p) /\
      (forall k' x' y', origin_at g k' = Some (x', y') -> in_square x' y' size (px p) (py p) -> k' = k) /\
      (forall j' u' v', origin_at sg j' = Some (u', v') -> in_square u' v' sub (px p) (py p) -> j' = j)).
Proof.
  intros Hs Hsub H. split; [|split].
  - intros k x y. by eapply (vr_empty_location e size sub b zarr disk).
  - intros x y sg j u v. by eapply (vr_location e size sub b zarr disk).
  - intros p. by eapply (vr_cover e size sub b zarr disk).
Qed.
Print Assumptions C05_vr_soundings.
Example C05_case :
  map (fun k => (origin_at sr_2 k, option_map t_data (tile_at sr_2 k))) [0; 1; 4; 5; 7]%nat =
  [(Some (-8, -8), Some (Some [Point (-3) (-8) 5 1 1])); (Some (0, -8), None); 
   (Some (-8, 0), None); (Some (0, 0), Some (Some [Point 1 1 10 1 1; Point 3 7 30 1 1])); (Some (16, 0), None)].
Proof. by vm_compute. Qed.

(** ** C06 *)
Theorem C06_sr_count e size b zarr disk g ct seen ok :
  0 < size -> sr_history e size b zarr disk g ct seen ok ->
  g_points_count sr_ops g = list_sum (map (fun cd => length cd.2) ct).
Proof.
  intros Hs H. rewrite (root_count sr_ops _ _ (sr_laws (new_sr_meta 0 0 size b zarr)) Hs _ _ _ _ (sr_inv e size b zarr disk Hs _ _ _ _ H)).
  clear. unfold all_points. induction ct as [|[c d] ct IH]; [done|]. cbn. by rewrite app_length, IH.
Qed.
Print Assumptions C06_sr_count.
Theorem C06_vr_count e size sub b zarr disk g ct seen ok :
  0 < size -> 0 < sub -> vr_history e size sub b zarr disk g ct seen ok ->
  g_points_count vr_ops g = list_sum (map (fun cd => length cd.2) ct).
Proof.
  intros Hs Hsub H. rewrite (root_count vr_ops _ _ (vr_laws size sub b zarr Hs Hsub) Hs _ _ _ _ (vr_inv e size sub b zarr disk Hs Hsub _ _ _ _ H)).
  clear. unfold all_points. induction ct as [|[c d] ct IH]; [done|]. cbn. by rewrite app_length, IH.
Qed.
Print Assumptions C06_vr_count.
Example C06_case : g_points_count sr_ops sr_2 = 5%nat /\ g_points_count vr_ops vr_2 = 5%nat.
Proof. split; by vm_compute. Qed.

(** ** C07 *)
Theorem C07_sr_undo e size b zarr disk g ct seen ok d a :
  0 < size -> sr_history e size b zarr disk g ct seen ok ->
  exn_of (g_add_points sr_ops g (GoodData d) a) = None ->
  let g1 := st_of (g_add_points sr_ops g (GoodData d) a) in
  exn_of (g_remove_points sr_ops g1 (a_container a)) = None ->
  let g2 := st_of (g_remove_points sr_ops g1 (a_container a)) in
  (forall x y l, (exists t, has_tile g2 x y t /\ t_data t = Some l) <-> (exists t, has_tile g x y t /\ t_data t = Some l)) /\
  dkeys (m_container (g_meta g2)) = dkeys (m_container (g_meta g)) /\
  g_points_count sr_ops g2 = g_points_count sr_ops g /\
  (forall x y t, has_tile g1 x y t ->
     t_data t = Some (filter (fun p => in_square x y size (px p) (py p)) (all_points ct) ++
                      filter (fun p => in_square x y size (px p) (py p)) d)).
Proof.
  intros Hs H Hx g1 Hx2 g2. pose proof (sr_inv e size b zarr disk Hs _ _ _ _ H) as HI.
  destruct (undo_inv sr_ops _ _ (sr_laws (new_sr_meta 0 0 size b zarr)) Hs eq_refl eq_refl eq_refl g ct seen ok d a _ HI Hx eq_refl Hx2)
    as ((seen' & ok' & HI2) & Hk).
  split; [|split; [exact Hk|split]].
  - intros x y l. split.
    + exact (sr_same_soundings _ _ (new_sr_meta 0 0 size b zarr) _ _ _ _ _ _ _ Hs HI2 HI x y l).
    + exact (sr_same_soundings _ _ (new_sr_meta 0 0 size b zarr) _ _ _ _ _ _ _ Hs HI HI2 x y l).
  - rewrite (root_count sr_ops _ _ (sr_laws (new_sr_meta 0 0 size b zarr)) Hs _ _ _ _ HI).
    exact (root_count sr_ops _ _ (sr_laws (new_sr_meta 0 0 size b zarr)) Hs _ _ _ _ HI2).
  - intros x y t (k & Ho & Ht). pose proof (GH_add _ _ _ _ _ _ _ _ _ H Hx) as H1.
    pose proof (sr_location e size b zarr disk Hs _ _ _ _ _ _ _ H1 Ho) as Hl. fold g1 in Hl. rewrite Ht in Hl. destruct Hl as [-> _].
    by rewrite all_points_snoc, filter_app.
Qed.
Print Assumptions C07_sr_undo.
Theorem C07_vr_undo e size sub b zarr disk g ct seen ok d a :
  0 < size -> 0 < sub -> vr_history e size sub b zarr disk g ct seen ok ->
  exn_of (g_add_points vr_ops g (GoodData d) a) = None ->
  let g1 := st_of (g_add_points vr_ops g (GoodData d) a) in
  exn_of (g_remove_points vr_ops g1 (a_container a)) = None ->
  let g2 := st_of (g_remove_points vr_ops g1 (a_container a)) in
  (forall x y u v l, (exists sg t, has_tile g2 x y sg /\ has_tile sg u v t /\ t_data t = Some l) <->
                     (exists sg t, has_tile g x y sg /\ has_tile sg u v t /\ t_data t = Some l)) /\
  dkeys (m_container (g_meta g2)) = dkeys (m_container (g_meta g)) /\
  g_points_count vr_ops g2 = g_points_count vr_ops g.
Proof.
  intros Hs Hsub H Hx g1 Hx2 g2. pose proof (vr_inv e size sub b zarr disk Hs Hsub _ _ _ _ H) as HI.
  destruct (undo_inv vr_ops _ _ (vr_laws size sub b zarr Hs Hsub) Hs eq_refl eq_refl eq_refl g ct seen ok d a _ HI Hx eq_refl Hx2)
    as ((seen' & ok' & HI2) & Hk).
  split; [|split; [exact Hk|]].
  - intros x y u v l. split.
    + exact (vr_same_soundings _ _ _ _ _ _ _ _ _ _ _ Hs Hsub HI2 HI x y u v l).
    + exact (vr_same_soundings _ _ _ _ _ _ _ _ _ _ _ Hs Hsub HI HI2 x y u v l).
  - rewrite (root_count vr_ops _ _ (vr_laws size sub b zarr Hs Hsub) Hs _ _ _ _ HI).
    exact (root_count vr_ops _ _ (vr_laws size sub b zarr Hs Hsub) Hs _ _ _ _ HI2).
Qed.
Print Assumptions C07_vr_undo.
Example C07_case :
  exn_of (g_remove_points sr_ops sr_2 "two") = None /\
  map (fun t => (t_min_x t, t_min_y t, map xy_of (default [] (t_data t)))) (live_tiles (st_of (g_remove_points sr_ops sr_2 "two"))) =
    [(0, 0, [(1, 1); (3, 7)]); (8, 0, [(13, 2)])] /\
  exn_of (g_remove_points vr_ops vr_2 "two") = None.
Proof. split; [by vm_compute|]. split; by vm_compute. Qed.

(** ** C08 *)
Theorem C08_sr_duplicate e size b zarr disk g ct seen ok inp a :
  0 < size -> sr_history e size b zarr disk g ct seen ok -> a_container a ∈ ct.*1 ->
  g_add_points sr_ops g inp a = Out g [] (Some ValueError).
Proof.
  intros Hs H Hc. pose proof (rb_keys _ _ _ (proj1 (sr_inv e size b zarr disk Hs _ _ _ _ H)) _ Hc) as Hk.
  unfold g_add_points. by rewrite (proj2 (dmem_true _ _) Hk).
Qed.
Print Assumptions C08_sr_duplicate.
Theorem C08_vr_duplicate e size sub b zarr disk g ct seen ok inp a :
  0 < size -> 0 < sub -> vr_history e size sub b zarr disk g ct seen ok -> a_container a ∈ ct.*1 ->
  g_add_points vr_ops g inp a = Out g [] (Some ValueError).
Proof.
  intros Hs Hsub H Hc. pose proof (rb_keys _ _ _ (proj1 (vr_inv e size sub b zarr disk Hs Hsub _ _ _ _ H)) _ Hc) as Hk.
  unfold g_add_points. by rewrite (proj2 (dmem_true _ _) Hk).
Qed.
Print Assumptions C08_vr_duplicate.
Example C08_case : a_container (args_of "one") ∈ ct_2.*1.
Proof. left. Qed.

(** ** C11 *)
Theorem C11_sr_growth e size b zarr disk g ct seen ok d a :
  0 < size -> sr_history e size b zarr disk g ct seen ok ->
  exn_of (g_add_points sr_ops g (GoodData d) a) = None ->
  forall x y t, has_tile g x y t ->
    exists t', has_tile (st_of (g_add_points sr_ops g (GoodData d) a)) x y t' /\
      gains t (filter (fun p => in_square x y size (px p) (py p)) d) (a_container a) t'.
Proof.
  intros Hs H Hx x y t Ht. pose proof (sr_inv e size b zarr disk Hs _ _ _ _ H) as HI.
  destruct (root_add sr_ops _ _ (sr_laws (new_sr_meta 0 0 size b zarr)) Hs eq_refl eq_refl eq_refl g ct seen ok (GoodData d) a HI)
    as [(H1 & _)|(d' & m1 & [= <-] & Hd & Hf & Hu & _ & _ & _ & Hgr)]; [done|].
  destruct (Hgr _ _ _ Ht) as (t' & Ht' & Hg). exists t'. split; [done|].
  destruct (root_has _ _ _ _ _ _ _ _ _ HI Ht) as (Hne & Hr).
  refine (sr_grown _ _ _ _ _ _ _ _ _ _ (new_sr_meta 0 0 size b zarr) Hr _ eq_refl Hg). intros Hin%content_in_keys. apply Hf. by apply (rb_keys _ _ _ (proj1 HI)).
Qed.
Print Assumptions C11_sr_growth.
Theorem C11_vr_growth e size sub b zarr disk g ct seen ok d a :
  0 < size -> 0 < sub -> vr_history e size sub b zarr disk g ct seen ok ->
  exn_of (g_add_points vr_ops g (GoodData d) a) = None ->
  forall x y sg, has_tile g x y sg ->
    exists sg', has_tile (st_of (g_add_points vr_ops g (GoodData d) a)) x y sg' /\
      (filter (fun p => in_square x y size (px p) (py p)) d = [] -> sg' = sg) /\
      forall u v t, has_tile sg u v t -> exists t', has_tile sg' u v t' /\
        gains t (filter (fun p => in_square x y size (px p) (py p) /\ in_square u v sub (px p) (py p)) d) (a_container a) t'.
Proof.
  intros Hs Hsub H Hx x y sg Hsg. pose proof (vr_inv e size sub b zarr disk Hs Hsub _ _ _ _ H) as HI.
  destruct (root_add vr_ops _ _ (vr_laws size sub b zarr Hs Hsub) Hs eq_refl eq_refl eq_refl g ct seen ok (GoodData d) a HI)
    as [(H1 & _)|(d' & m1 & [= <-] & Hd & Hf & Hu & _ & _ & _ & Hgr)]; [done|].
  destruct (Hgr _ _ _ Hsg) as (sg' & Hsg' & Hg). exists sg'. split; [done|].
  destruct (root_has _ _ _ _ _ _ _ _ _ HI Hsg) as (Hne & Hr). cbn [m_tile_size new_vr_meta new_meta] in *.
  assert (Hfresh : a_container a ∉ (content_in x y size ct).*1).
  { intros Hin%content_in_keys. apply Hf. by apply (rb_keys _ _ _ (proj1 HI)). }
  unfold grown_tile in Hg. cbn [m_tile_size new_vr_meta new_meta] in Hg.
  destruct (filter (fun p => in_square x y size (px p) (py p)) d) as [|p l] eqn:E.
  - subst sg'. split; [done|]. intros u v t Ht. exists t. split; [done|]. left. split; [|done].
    rewrite <- filter_both, E. done.
  - split; [done|]. intros u v t Ht. rewrite <- filter_both, E.
    unfold reload_at in Hg. cbn [vr_ops grid_ops op_sr op_add] in Hg. rewrite andb_false_r in Hg. injection Hg as ->.
    destruct (child_add sr_ops (sub0 size sub b zarr x y) (sr_rep sub false) (sr_laws (sub0 size sub b zarr x y)) Hsub eq_refl x y size Hs eq_refl
       sg (content_in x y size ct) (p :: l) (nested_args a)) as (_ & _ & Hk); try done.
    { rewrite <- E. apply Forall_forall. by intros q [Hq _]%elem_of_list_filter. }
    destruct (Hk u v t Ht) as (t' & Ht' & Hg'). exists t'. split; [done|].
    destruct Ht as (j & Ho & Ht). pose proof (sub_location _ _ _ _ _ _ _ _ _ _ _ Hr Hne Ho) as Hsl. rewrite Ht in Hsl. destruct Hsl as [_ Hr2].
    refine (sr_grown _ _ _ (nested_args a) _ _ _ _ _ _ (sub0 size sub b zarr x y) Hr2 _ eq_refl Hg'). intros Hin%content_in_keys. done.
Qed.
Print Assumptions C11_vr_growth.
(** The grid grows to the left and downwards; tile (0, 0) moves in the array, not on the map. *)
Example C11_case :
  origin_at sr_1 0 = Some (0, 0) /\ origin_at sr_2 5 = Some (0, 0) /\
  option_map t_data (tile_at sr_1 0) = option_map t_data (tile_at sr_2 5) /\
  option_map t_data (tile_at sr_1 1) = Some (Some [Point 13 2 20 1 1]) /\
  option_map t_data (tile_at sr_2 6) = Some (Some [Point 13 2 20 1 1; Point 8 0 7 1 1]).
Proof. vm_compute. by repeat split. Qed.

(** ** C12 *)
Definition extents_ok (size : Z) (m : gmeta) (seen : list point) : Prop :=
  exists a b c d, m_ext m = Some (Ext a b c d) /\
    (size | a) /\ (size | b) /\ (size | c) /\ (size | d) /\
    Forall (fun p => a <= px p < c /\ b <= py p < d) seen /\
    m_width m = Some (c - a) /\ m_height m = Some (d - b).
Lemma framed_ok {T} m0 rep (g : grid T) ct seen ok :
  0 < m_tile_size m0 -> root_inv m0 rep g ct seen ok -> ct <> [] ->
  extents_ok (m_tile_size m0) (g_meta g) seen /\ (forall p, p ∈ all_points ct -> p ∈ seen).
Proof.
  intros Hs HI Hne. destruct (root_framed _ _ _ _ _ _ HI Hne) as (lx & ly & nx & ny & (F1 & F2 & F3 & F4 & F5) & Hsn & Hsub & _).
  split; [|done]. apply Z.mod_divide in F1, F2; try lia. exists lx, ly, (lx + Z.of_nat nx * m_tile_size m0), (ly + Z.of_nat ny * m_tile_size m0).
  split; [done|]. split; [done|]. split; [done|]. split; [apply Z.divide_add_r; [done|apply Z.divide_factor_r]|].
  split; [apply Z.divide_add_r; [done|apply Z.divide_factor_r]|]. split.
  - apply (Forall_fmap xy_of) in Hsn. eapply Forall_impl; [exact Hsn|]. done.
  - rewrite F4, F5. split; f_equal; lia.
Qed.
Theorem C12_sr_extents e size b zarr disk g ct seen ok :
  0 < size -> sr_history e size b zarr disk g ct seen ok -> ct <> [] ->
  extents_ok size (g_meta g) seen /\ (forall p, p ∈ all_points ct -> p ∈ seen).
Proof. intros Hs H Hne. exact (framed_ok (new_sr_meta 0 0 size b zarr) _ _ _ _ _ Hs (sr_inv e size b zarr disk Hs _ _ _ _ H) Hne). Qed.
Print Assumptions C12_sr_extents.
Theorem C12_vr_extents e size sub b zarr disk g ct seen ok :
  0 < size -> 0 < sub -> vr_history e size sub b zarr disk g ct seen ok -> ct <> [] ->
  extents_ok size (g_meta g) seen /\ (forall p, p ∈ all_points ct -> p ∈ seen).
Proof. intros Hs Hsub H Hne. exact (framed_ok (new_vr_meta 0 0 size sub b zarr) _ _ _ _ _ Hs (vr_inv e size sub b zarr disk Hs Hsub _ _ _ _ H) Hne). Qed.
Print Assumptions C12_vr_extents.
Example C12_case : m_ext (g_meta sr_2) = Some (Ext (-8) (-8) 24 16) /\ m_ext (g_meta vr_2) = Some (Ext (-16) (-16) 32 32).
Proof. split; by vm_compute. Qed.

(** ** C13: false; every add_points to a grid that has data adds a row and a column of tiles. *)
Theorem C13_extents_stable_refuted :
  exists g g' ct seen X0 Y0 X1 Y1,
    sr_history env_s 8 false false true g ct seen true /\ m_ext (g_meta g) = Some (Ext X0 Y0 X1 Y1) /\
    g' = st_of (g_add_points sr_ops g (GoodData [Point 1 1 10 1 1]) (args_of "more")) /\
    exn_of (g_add_points sr_ops g (GoodData [Point 1 1 10 1 1]) (args_of "more")) = None /\
    X0 < 1 < X1 /\ Y0 < 1 < Y1 /\ m_ext (g_meta g') <> m_ext (g_meta g).
Proof.
  eexists sr_2, _, _, _, (-8), (-8), 24, 16. split; [apply sr_2_history|]. split; [by vm_compute|]. split; [done|].
  split; [by vm_compute|]. split; [lia|]. split; [lia|]. by vm_compute.
Qed.
Print Assumptions C13_extents_stable_refuted.
(** What does happen: the lower sides stay, both upper sides move by one tile. *)
Theorem C13_sr_extents_partial e size b zarr disk g ct seen ok d a X0 Y0 X1 Y1 :
  0 < size -> sr_history e size b zarr disk g ct seen ok -> ct <> [] ->
  exn_of (g_add_points sr_ops g (GoodData d) a) = None -> m_ext (g_meta g) = Some (Ext X0 Y0 X1 Y1) ->
  Forall (fun p => X0 <= px p <= X1 /\ Y0 <= py p <= Y1) d ->
  m_ext (g_meta (st_of (g_add_points sr_ops g (GoodData d) a))) = Some (Ext X0 Y0 (X1 + size) (Y1 + size)).
Proof.
  intros Hs H Hne Hx He Hin.
  exact (add_inside sr_ops _ _ (sr_laws (new_sr_meta 0 0 size b zarr)) Hs eq_refl eq_refl eq_refl _ _ _ _ _ _ _ _ _ _ (sr_inv e size b zarr disk Hs _ _ _ _ H) Hne Hx He Hin).
Qed.
Print Assumptions C13_sr_extents_partial.
Theorem C13_vr_extents_partial e size sub b zarr disk g ct seen ok d a X0 Y0 X1 Y1 :
  0 < size -> 0 < sub -> vr_history e size sub b zarr disk g ct seen ok -> ct <> [] ->
  exn_of (g_add_points vr_ops g (GoodData d) a) = None -> m_ext (g_meta g) = Some (Ext X0 Y0 X1 Y1) ->
  Forall (fun p => X0 <= px p <= X1 /\ Y0 <= py p <= Y1) d ->
  m_ext (g_meta (st_of (g_add_points vr_ops g (GoodData d) a))) = Some (Ext X0 Y0 (X1 + size) (Y1 + size)).
Proof.
  intros Hs Hsub H Hne Hx He Hin.
  exact (add_inside vr_ops _ _ (vr_laws size sub b zarr Hs Hsub) Hs eq_refl eq_refl eq_refl _ _ _ _ _ _ _ _ _ _ (vr_inv e size sub b zarr disk Hs Hsub _ _ _ _ H) Hne Hx He Hin).
Qed.
Print Assumptions C13_vr_extents_partial.

(** ** C14: false; the origin is subtracted from the extents but never added back. *)
Theorem C14_origin_refuted :
  exists g d x, g = st_of (g_add_points sr_ops (new_grid_obj (new_sr_meta 100 100 8 false false) false) (GoodData d) (args_of "one")) /\
    exn_of (g_add_points sr_ops (new_grid_obj (new_sr_meta 100 100 8 false false) false) (GoodData d) (args_of "one")) = None /\
    m_ext (g_meta g) = Some x /\ Forall (fun p => ~ (px p <= x1 x)) d /\ d <> [].
Proof. eexists _, [Point 101 103 10 1 1], (Ext 0 0 8 8). split; [done|]. split; [by vm_compute|]. split; [by vm_compute|]. split; [|done]. apply Forall_singleton. cbn. lia. Qed.
Print Assumptions C14_origin_refuted.
(** With the origin 0, which create_grid always uses, the extents cover what was added. *)
Theorem C14_origin_partial e size b zarr disk g ct seen ok d a :
  0 < size -> sr_history e size b zarr disk g ct seen ok -> exn_of (g_add_points sr_ops g (GoodData d) a) = None ->
  exists x, m_ext (g_meta (st_of (g_add_points sr_ops g (GoodData d) a))) = Some x /\
    Forall (fun p => x0 x <= px p < x1 x /\ y0 x <= py p < y1 x) d.
Proof.
  intros Hs H Hx. destruct (C12_sr_extents e size b zarr disk _ _ _ _ Hs (GH_add _ _ _ _ _ _ _ _ _ H Hx)) as ((x0 & y0 & x1 & y1 & He & _ & _ & _ & _ & Hf & _) & _).
  { by destruct ct. }
  exists (Ext x0 y0 x1 y1). split; [done|]. by apply Forall_app in Hf as [_ Hf].
Qed.
Print Assumptions C14_origin_partial.

(** ** C15 *)
Theorem C15_sr_no_empty_tiles e size b zarr disk g ct seen ok :
  0 < size -> sr_history e size b zarr disk g ct seen ok ->
  (forall t, t ∈ live_tiles g -> t_points_count t <> 0%nat) /\
  (ct <> [] -> m_ntiles (g_meta g) = Some (Z.of_nat (length (live_tiles g)))) /\
  (ct = [] <-> g_is_empty g = true) /\
  (ct = [] -> live_tiles g = [] /\
     forall d a, let g0 := create_sr size b zarr (g_disk g) in
       exn_of (g_add_points sr_ops g (GoodData d) a) = None -> exn_of (g_add_points sr_ops g0 (GoodData d) a) = None ->
       let r := st_of (g_add_points sr_ops g (GoodData d) a) in
       let r0 := st_of (g_add_points sr_ops g0 (GoodData d) a) in
       g_tiles r = g_tiles r0 /\ g_geom r = g_geom r0 /\ m_ext (g_meta r) = m_ext (g_meta r0) /\
       m_width (g_meta r) = m_width (g_meta r0) /\ m_height (g_meta r) = m_height (g_meta r0) /\
       m_ntiles (g_meta r) = m_ntiles (g_meta r0)).
Proof.
  intros Hs H. pose proof (sr_inv e size b zarr disk Hs _ _ _ _ H) as HI. split; [|split; [|split]].
  - intros t (k & Ht)%live_tile_at. destruct (sr_tile_place e size b zarr disk Hs _ _ _ _ _ _ H Ht) as (Ho & _).
    pose proof (sr_location e size b zarr disk Hs _ _ _ _ _ _ _ H Ho) as Hl. rewrite Ht in Hl. destruct Hl as [Hd Hne].
    unfold t_points_count. rewrite Hd. by destruct (filter _ _).
  - by apply (root_ntiles (new_sr_meta 0 0 size b zarr) (sr_rep size b) _ _ _ _ HI).
  - rewrite (root_is_empty (new_sr_meta 0 0 size b zarr) (sr_rep size b) Hs _ _ _ _ HI). by rewrite bool_decide_eq_true.
  - intros ->. destruct HI as [[B1 _ _ _] [(E1 & _)|(? & _)]]; [|done]. split; [unfold live_tiles; by rewrite E1|].
    intros d a g0 Hx Hx0.
    destruct (fresh_add sr_ops (new_sr_meta 0 0 size b zarr)) with (g := g) (g' := g0) (d := d) (a := a) as ((L1 & L2 & L3 & L4 & L5 & L6) & N & _); try done.
    intros m dk x y F. cbn. by rewrite (mf_size _ _ F), (mf_back _ _ F).
Qed.
Print Assumptions C15_sr_no_empty_tiles.
Theorem C15_vr_no_empty_tiles e size sub b zarr disk g ct seen ok :
  0 < size -> 0 < sub -> vr_history e size sub b zarr disk g ct seen ok ->
  (forall sg, sg ∈ live_tiles g -> g_points_count sr_ops sg <> 0%nat /\
     (forall t, t ∈ live_tiles sg -> t_points_count t <> 0%nat) /\
     m_ntiles (g_meta sg) = Some (Z.of_nat (length (live_tiles sg)))) /\
  (ct <> [] -> m_ntiles (g_meta g) = Some (Z.of_nat (length (live_tiles g)))) /\
  (ct = [] <-> g_is_empty g = true) /\
  (ct = [] -> live_tiles g = [] /\
     forall d a, let g0 := create_vr size sub b zarr (g_disk g) in
       exn_of (g_add_points vr_ops g (GoodData d) a) = None -> exn_of (g_add_points vr_ops g0 (GoodData d) a) = None ->
       let r := st_of (g_add_points vr_ops g (GoodData d) a) in
       let r0 := st_of (g_add_points vr_ops g0 (GoodData d) a) in
       g_tiles r = g_tiles r0 /\ g_geom r = g_geom r0 /\ m_ext (g_meta r) = m_ext (g_meta r0) /\
       m_width (g_meta r) = m_width (g_meta r0) /\ m_height (g_meta r) = m_height (g_meta r0) /\
       m_ntiles (g_meta r) = m_ntiles (g_meta r0)).
Proof.
  intros Hs Hsub H. pose proof (vr_inv e size sub b zarr disk Hs Hsub _ _ _ _ H) as HI. split; [|split; [|split]].
  - intros sg (k & Hg)%live_tile_at. destruct (root_origin _ _ _ _ _ _ _ _ HI Hg) as (x & y & Ho).
    assert (Hh : has_tile g x y sg) by (by exists k).
    destruct (root_has _ _ _ _ _ _ _ _ _ HI Hh) as (Hne & Hr). split; [|split].
    + pose proof (tl_count _ _ _ (vr_laws size sub b zarr Hs Hsub) _ _ _ _ Hr) as Hc. cbn in Hc. rewrite Hc.
      intros Hz%nil_length_inv. apply Hne. apply all_points_nil_iff in Hz; [done|apply content_in_nonempty].
    + intros t (j & Ht)%live_tile_at. destruct (vr_subtile_place e size sub b zarr disk Hs Hsub _ _ _ _ _ _ _ _ _ H Hh Ht) as [Ho2 _].
      pose proof (vr_location e size sub b zarr disk Hs Hsub _ _ _ _ _ _ _ _ _ _ H Hh Ho2) as Hl. rewrite Ht in Hl. destruct Hl as [Hd Hn].
      unfold t_points_count. rewrite Hd. by destruct (filter _ _).
    + destruct Hr as [_ [(_ & E & _)|(_ & a & P & N & _)]]; [done|]. rewrite N. unfold live_tiles, count_live. by rewrite (pl_tiles _ _ _ _ _ _ _ _ _ P).
  - by apply (root_ntiles (new_vr_meta 0 0 size sub b zarr) (vr_rep size sub b zarr) _ _ _ _ HI).
  - rewrite (root_is_empty (new_vr_meta 0 0 size sub b zarr) (vr_rep size sub b zarr) Hs _ _ _ _ HI). by rewrite bool_decide_eq_true.
  - intros ->. destruct HI as [[B1 _ _ _] [(E1 & _)|(? & _)]]; [|done]. split; [unfold live_tiles; by rewrite E1|].
    intros d a g0 Hx Hx0.
    destruct (fresh_add vr_ops (new_vr_meta 0 0 size sub b zarr)) with (g := g) (g' := g0) (d := d) (a := a) as ((L1 & L2 & L3 & L4 & L5 & L6) & N & _); try done.
    intros m dk x y F. cbn [vr_ops grid_ops op_build]. unfold new_grid_obj. f_equal. by apply sub_meta_frame.
Qed.
Print Assumptions C15_vr_no_empty_tiles.
(** Removing the last container and adding again elsewhere. *)
Definition sr_emptied := st_of (g_remove_points sr_ops (st_of (g_remove_points sr_ops sr_2 "one")) "two").
Example sr_emptied_history : sr_history env_s 8 false false true sr_emptied [] [] false.
Proof.
  apply (GH_remove_last _ _ _ _ [("two", pts_two)] (pts_one ++ pts_two) true "two"); [|by vm_compute|done].
  apply (GH_remove _ _ _ _ ct_2 (pts_one ++ pts_two) true "one"); [apply sr_2_history|by vm_compute|done].
Qed.
Example C15_case :
  m_ext (g_meta (sr_add sr_emptied [Point 100 100 1 1 1] "three")) = Some (Ext 96 96 104 104) /\
  m_ntiles (g_meta sr_2) = Some 3.
Proof. split; by vm_compute. Qed.

(** ** C34: false; mean_depth is that of the last batch. *)
Theorem C34_mean_depth_refuted :
  exists g ct seen, sr_history env_s 8 false false true g ct seen true /\
    ~ exists m, is_mean (map pz (all_points ct)) m /\ is_round3 m (m_mean_depth (g_meta g)).
Proof.
  exists sr_2, ct_2, (pts_one ++ pts_two). split; [apply sr_2_history|]. intros (m & [_ Hm] & (k & Hk & Hr & _)).
  assert (E : (m_mean_depth (g_meta sr_2) == 6)%Q) by (by vm_compute). rewrite E in *.
  change (sumQ (map pz (all_points ct_2))) with (10 + (20 + (30 + (5 + (7 + 0)))))%Q in Hm. change (numQ (length (map pz (all_points ct_2)))) with 5%Q in Hm.
  apply Qabs_Qle_condition in Hr as [H1 H2]. lra.
Qed.
Print Assumptions C34_mean_depth_refuted.
Theorem C34_batch_mean_partial {T} (O : tile_ops T) g d a :
  exn_of (g_add_points O g (GoodData d) a) = None -> d <> [] ->
  exists m, is_mean (map pz d) m /\
    is_round3 m (m_mean_depth (g_meta (st_of (g_add_points O g (GoodData d) a)))).
Proof.
  intros Hx Hd. assert (E : m_mean_depth (g_meta (st_of (g_add_points O g (GoodData d) a))) = batch_mean_depth d).
  { revert Hx. unfold g_add_points. destruct (dmem _ _); [done|]. destruct (update_metadata _ _) as [m1 [?|]]; [done|].
    destruct (update_base_grid _ _) as [g2 [?|]]; [done|]. destruct (place_tiles g2) as [g3 [?|]]; [done|].
    destruct (exn_of (add_points_to_tiles O g3 d a)) eqn:Ex; [by rewrite Ex|done]. }
  rewrite E. unfold batch_mean_depth. assert (Hn : map pz d <> []) by (by destruct d). destruct (forallb _ d) eqn:Ez.
  - exists 0%Q. split.
    + split; [done|]. rewrite forallb_forall in Ez. assert (Hz : (sumQ (map pz d) == 0)%Q); [|rewrite Hz; ring].
      clear -Ez. induction d as [|p d IH]; [done|]. cbn. rewrite IH by (intros q Hq; apply Ez; by right).
      assert (Hp : (pz p == 0)%Q) by (apply Qeq_bool_iff, Ez; by left). rewrite Hp. ring.
    + exists 0. split; [done|]. split; [done|]. intros _. by exists 0.
  - destruct (map pz d) as [|q l] eqn:Em; [done|]. exists (mean_of (q :: l)). split; [by apply mean_of_spec|]. apply round3_spec.
Qed.
Print Assumptions C34_batch_mean_partial.

(** ** C49: false; epsg, times, and for a batch without points the container entry, stay behind. *)
Theorem C49_failed_add_refuted :
  exists g ct seen a a', sr_history env_s 8 false false true g ct seen true /\
    let out := g_add_points sr_ops g (GoodData pts_two) a in
    let out' := g_add_points sr_ops g (GoodData []) a' in
    exn_of out <> None /\ m_epsg (g_meta (st_of out)) <> m_epsg (g_meta g) /\
    exn_of out' <> None /\ dkeys (m_container (g_meta (st_of out'))) <> dkeys (m_container (g_meta g)).
Proof.
  exists sr_1, [("one", pts_one)], pts_one, (AddArgs "two" [] (Some (CrsCode 26917)) None (Some (10 ^ 20)%Q) None "now"), (args_of "two").
  split; [apply sr_1_history|]. vm_compute. by repeat split.
Qed.
Print Assumptions C49_failed_add_refuted.
(** No sounding, tile, extent or tile count changes; nothing at all when the container is there already or
    the data lacks variables. *)
Theorem C49_sr_failed_add_partial e size b zarr disk g ct seen ok inp a :
  0 < size -> sr_history e size b zarr disk g ct seen ok ->
  let out := g_add_points sr_ops g inp a in
  exn_of out <> None ->
  g_tiles (st_of out) = g_tiles g /\ g_geom (st_of out) = g_geom g /\ g_mask (st_of out) = g_mask g /\
  m_ext (g_meta (st_of out)) = m_ext (g_meta g) /\ m_ntiles (g_meta (st_of out)) = m_ntiles (g_meta g) /\
  (a_container a ∈ ct.*1 \/ inp = BadData -> st_of out = g).
Proof.
  intros Hs H out Hx. pose proof (sr_inv e size b zarr disk Hs _ _ _ _ H) as HI.
  destruct (root_add sr_ops _ _ (sr_laws (new_sr_meta 0 0 size b zarr)) Hs eq_refl eq_refl eq_refl g ct seen ok inp a HI)
    as [(_ & _ & m1 & Hg & E1 & E2)|(d & m1 & -> & _ & _ & _ & He & _)]; [|by fold out in He].
  fold out in Hg. rewrite Hg. cbn. repeat split; try done. rewrite <- Hg. intros [Hc| ->].
  - unfold out. by rewrite (C08_sr_duplicate e size b zarr disk _ _ _ _ _ _ Hs H Hc).
  - unfold out, g_add_points. by destruct (dmem _ _).
Qed.
Print Assumptions C49_sr_failed_add_partial.
Theorem C49_vr_failed_add_partial e size sub b zarr disk g ct seen ok inp a :
  0 < size -> 0 < sub -> vr_history e size sub b zarr disk g ct seen ok ->
  let out := g_add_points vr_ops g inp a in
  exn_of out <> None ->
  g_tiles (st_of out) = g_tiles g /\ g_geom (st_of out) = g_geom g /\ g_mask (st_of out) = g_mask g /\
  m_ext (g_meta (st_of out)) = m_ext (g_meta g) /\ m_ntiles (g_meta (st_of out)) = m_ntiles (g_meta g) /\
  (a_container a ∈ ct.*1 \/ inp = BadData -> st_of out = g).
Proof.
  intros Hs Hsub H out Hx. pose proof (vr_inv e size sub b zarr disk Hs Hsub _ _ _ _ H) as HI.
  destruct (root_add vr_ops _ _ (vr_laws size sub b zarr Hs Hsub) Hs eq_refl eq_refl eq_refl g ct seen ok inp a HI)
    as [(_ & _ & m1 & Hg & E1 & E2)|(d & m1 & -> & _ & _ & _ & He & _)]; [|by fold out in He].
  fold out in Hg. rewrite Hg. cbn. repeat split; try done. rewrite <- Hg. intros [Hc| ->].
  - unfold out. by rewrite (C08_vr_duplicate e size sub b zarr disk _ _ _ _ _ _ Hs Hsub H Hc).
  - unfold out, g_add_points. by destruct (dmem _ _).
Qed.
Print Assumptions C49_vr_failed_add_partial.

(** ** C75: false; the mask of tiles to keep outlives an emptied grid and no longer fits the new tile
    array, so removing a tile indexes it out of range. The container is gone, its points are not. *)
Definition stale_1 := sr_add (sr_add (sr_add (create_sr 8 false false false) [Point 1 1 1 1 1] "a") [Point 2 2 1 1 1] "b") [Point 3 3 1 1 1] "c".
Definition stale_2 := st_of (g_remove_points sr_ops (st_of (g_remove_points sr_ops (st_of (g_remove_points sr_ops stale_1 "a")) "b")) "c").
Definition stale_3 := sr_add stale_2 [Point 1 1 1 1 1; Point 31 31 1 1 1] "d".
Example stale_3_history : sr_history env_s 8 false false false stale_3 [("d", [Point 1 1 1 1 1; Point 31 31 1 1 1])] [Point 1 1 1 1 1; Point 31 31 1 1 1] false.
Proof.
  apply (GH_add _ _ _ _ [] [] false [Point 1 1 1 1 1; Point 31 31 1 1 1] (args_of "d")); [|by vm_compute].
  apply (GH_remove_last _ _ _ _ [("c", [Point 3 3 1 1 1])] [Point 1 1 1 1 1; Point 2 2 1 1 1; Point 3 3 1 1 1] true "c"); [|by vm_compute|done].
  apply (GH_remove _ _ _ _ [("b", [Point 2 2 1 1 1]); ("c", [Point 3 3 1 1 1])] [Point 1 1 1 1 1; Point 2 2 1 1 1; Point 3 3 1 1 1] true "b"); [|by vm_compute|done].
  apply (GH_remove _ _ _ _ [("a", [Point 1 1 1 1 1]); ("b", [Point 2 2 1 1 1]); ("c", [Point 3 3 1 1 1])] [Point 1 1 1 1 1; Point 2 2 1 1 1; Point 3 3 1 1 1] true "a"); [|by vm_compute|done].
  apply (GH_add _ _ _ _ [("a", [Point 1 1 1 1 1]); ("b", [Point 2 2 1 1 1])] [Point 1 1 1 1 1; Point 2 2 1 1 1] true [Point 3 3 1 1 1] (args_of "c")); [|by vm_compute].
  apply (GH_add _ _ _ _ [("a", [Point 1 1 1 1 1])] [Point 1 1 1 1 1] true [Point 2 2 1 1 1] (args_of "b")); [|by vm_compute].
  apply (GH_add _ _ _ _ [] [] true [Point 1 1 1 1 1] (args_of "a")); [apply GH_new|by vm_compute].
Qed.
Theorem C75_remove_refuted :
  exists g ct seen, sr_history env_s 8 false false false g ct seen false /\ ct.*1 = ["d"] /\
    let out := g_remove_points sr_ops g "d" in
    exn_of out = Some IndexError /\ m_container (g_meta (st_of out)) = [] /\ live_tiles (st_of out) <> [].
Proof. eexists stale_3, _, _. split; [apply stale_3_history|]. split; [done|]. vm_compute. by repeat split. Qed.
Print Assumptions C75_remove_refuted.
(** It never raises while the grid has not been emptied since it was created. *)
Theorem C75_sr_remove_partial e size b zarr disk g ct seen c :
  0 < size -> sr_history e size b zarr disk g ct seen true -> exn_of (g_remove_points sr_ops g c) = None.
Proof.
  intros Hs H. by apply (root_remove sr_ops _ _ (sr_laws (new_sr_meta 0 0 size b zarr)) Hs _ _ _ _ c (sr_inv e size b zarr disk Hs _ _ _ _ H)).
Qed.
Print Assumptions C75_sr_remove_partial.
Theorem C75_vr_remove_partial e size sub b zarr disk g ct seen c :
  0 < size -> 0 < sub -> vr_history e size sub b zarr disk g ct seen true -> exn_of (g_remove_points vr_ops g c) = None.
Proof.
  intros Hs Hsub H. by apply (root_remove vr_ops _ _ (vr_laws size sub b zarr Hs Hsub) Hs _ _ _ _ c (vr_inv e size sub b zarr disk Hs Hsub _ _ _ _ H)).
Qed.
Print Assumptions C75_vr_remove_partial.
