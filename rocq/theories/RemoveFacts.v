(** Facts about removing containers (C135). *)
From Verif Require Import Py Nd Numpy Point Bin Algorithms Tile Time Meta Disk Grid GridRun GridQuery GridOps Spec GridExec RemoveSpec.
From Verif Require Import PyFacts NdFacts NumpyFacts BinFacts TileFacts TileGridFacts TileSpecFacts TileRunFacts GridBaseFacts GridPlaceFacts GridInvFacts GridRootFacts GridSrFacts GridPropFacts GridHistFacts.
Open Scope Z_scope.

(** ** One tile *)
Lemma clear_layer_of cells rs r name : name ∉ ["x_slope"; "y_slope"] ->
  match dget (clear_temp_cells cells rs) r with Some l => dget l name | None => None end = match dget cells r with Some l => dget l name | None => None end.
Proof.
  intros Hn. rewrite dget_clear_temp_cells. destruct (dget cells r) as [l|]; [|done]. cbn [fmap option_fmap option_map].
  revert l. induction rs as [|r' rs IH]; intros l; [done|]. cbn [foldl]. rewrite IH. destruct (decide (r = r')); [|done].
  rewrite dget_clear_temp_layers. rewrite !decide_False; [done|intros ->; apply Hn; left|intros ->; apply Hn; right; left].
Qed.
Lemma remove_other t c : c ∉ dkeys (t_container t) -> t_remove_points t c = t.
Proof. intros H. unfold t_remove_points. by rewrite (proj2 (dget_None _ _) H). Qed.
Lemma remove_lost t ct c : tile_rep t ct -> c ∈ ct.*1 -> drop_c ct c <> [] -> lost t c (all_points (drop_c ct c)) (t_remove_points t c).
Proof.
  intros HR Hc Hne. pose proof (tile_rep_remove t ct c HR) as HR'.
  assert (Hk : forall u cu, tile_rep u cu -> dkeys (t_container u) = cu.*1) by (intros u cu [_ _ _ ->]; apply ranges_keys).
  pose proof (Hk _ _ HR) as K. pose proof (Hk _ _ HR') as K'. pose proof (rep_data _ _ HR' Hne) as HD.
  assert (Hf : (drop_c ct c).*1 = filter (fun c' => c' <> c) ct.*1).
  { unfold drop_c. clear. induction ct as [|[c1 d] ct IH]; [done|]. cbn [fmap list_fmap fst]. rewrite !filter_cons. cbn [fst]. destruct (decide (c1 <> c)); cbn; by rewrite IH. }
  unfold lost. rewrite HD, K', K, Hf.
  assert (Hg : is_Some (dget (t_container t) c)) by (apply dget_is_Some; by rewrite K). clear HD K' HR' Hk.
  unfold t_remove_points. destruct Hg as [[s0 e0] ->]. destruct (t_data t) as [d|] eqn:Ed; [|by rewrite (tr_none _ _ HR Ed) in Hc; apply not_elem_of_nil in Hc].
  cbv zeta. rewrite clear_temp_all_eq. cbn. do 8 (split; [done|]). intros r name Hn. unfold layer_of. cbn. by apply clear_layer_of.
Qed.

(** ** All locations *)
Section slots.
  Context {T : Type} (O : tile_ops T) (m0 : gmeta) (rep : T -> Z -> Z -> content -> Prop) (L : tile_laws O m0 rep) (Hs : 0 < m_tile_size m0).
  Notation s := (m_tile_size m0).
  Lemma removed_slots g ct lx ly nx ny a c : placed m0 rep g ct lx ly nx ny a -> m_ntiles (g_meta g) = Some (count_live (nflat a)) ->
    Forall (fun e : string * list point => e.2 <> []) ct -> ct <> [] -> c ∈ dkeys (m_container (g_meta g)) -> exn_of (g_remove_points O g c) = None ->
    let g' := st_of (g_remove_points O g c) in
    g_geom g' = g_geom g /\ m_ext (g_meta g') = m_ext (g_meta g) /\ forall k, tile_at g' k = rem_slot O (g_disk g) c (tile_at g k).
  Proof using L Hs.
    intros P Hn Hf Hne Hc Hx g'. destruct (remove_placed O m0 rep L Hs g ct lx ly nx ny a c P Hn Hf Hne Hc) as [_ R].
    destruct (R Hx) as (mk & fl & E & _ & Hl & Hk & Hsl & _). assert (Ha : g_tiles g = Some a) by apply P.
    assert (HT : forall k, mjoin (fl !! k) = rem_slot O (g_disk g) c (tile_at g k)).
    { intros k. rewrite Hk. unfold tile_at. rewrite Ha. by destruct (nflat a !! k) as [[t|]|]. }
    unfold g'. rewrite E. cbv zeta. case_bool_decide as Hd; [|done]. split; [done|]. split; [done|]. intros k. rewrite <- HT. cbn.
    destruct (fl !! k) as [[t|]|] eqn:Ek; try done. exfalso. destruct Hsl as [Hlen Hsl]. pose proof (lookup_lt_Some _ _ _ Ek) as Hlt. rewrite Hlen in Hlt.
    destruct (flat_div_lt _ _ _ Hlt) as [H1 H2]. destruct (Hsl _ _ H1 H2) as (o & Ho & HS).
    replace (k `div` nx * nx + k `mod` nx)%nat with k in Ho by (pose proof (pl_nx _ _ _ _ _ _ _ _ _ P); pose proof (Nat.div_mod k nx); lia).
    rewrite Ek in Ho. injection Ho as <-. rewrite Hd in HS. by destruct HS as [HS _].
  Qed.
  Lemma gone_iff x y ct c : filter (fun p => in_square x y s (px p) (py p)) (of_container ct c) <> [] <-> c ∈ (content_in x y s ct).*1.
  Proof.
    unfold of_container, content_in. induction ct as [|[c1 d] ct IH]; [split; [done|intros H; by apply not_elem_of_nil in H]|].
    cbn [map fst snd]. rewrite filter_cons. cbn [fst]. rewrite (filter_cons (fun cp : string * list point => cp.2 <> [])). cbn [snd].
    destruct (decide (c1 = c)) as [->|Hn].
    - unfold all_points at 1. cbn [fmap list_fmap snd concat]. rewrite filter_app. fold (all_points (filter (fun cp : string * list point => cp.1 = c) ct)).
      destruct (decide (filter (fun p => in_square x y s (px p) (py p)) d <> [])) as [Hd|Hd]; cbn [fmap list_fmap fst].
      + split; [intros _; left|]. intros _ [H _]%app_eq_nil. done.
      + apply dec_stable in Hd. rewrite Hd. exact IH.
    - destruct (decide (filter (fun p => in_square x y s (px p) (py p)) d <> [])) as [Hd|Hd]; cbn [fmap list_fmap fst]; [|exact IH].
      rewrite elem_of_cons. rewrite IH. split; [by right|]. by intros [?|?].
  Qed.
  Lemma rest_iff x y ct c : filter (fun p => in_square x y s (px p) (py p)) (all_points (drop_c ct c)) = [] <-> drop_c (content_in x y s ct) c = [].
  Proof.
    rewrite <- content_in_drop, <- content_in_points. rewrite all_points_nil_iff; [done|]. apply content_in_nonempty.
  Qed.

  (** [loses] follows for a tile with soundings of both from what the operation on it gives. *)
  Lemma removed_all (g : grid T) ct c (g' : grid T) (loses : Z -> Z -> T -> T -> Prop) :
    g_geom g' = g_geom g -> m_ext (g_meta g') = m_ext (g_meta g) -> (forall k, tile_at g' k = rem_slot O (g_disk g) c (tile_at g k)) ->
    (forall k x y, origin_at g k = Some (x, y) -> slot_ok rep x y (content_in x y s ct) (tile_at g k)) ->
    (forall t disk, reload_at O disk SavePoints (Some t) = Some t) ->
    (forall t x y ct', rep t x y ct' -> ct' <> [] -> c ∉ ct'.*1 -> st_of (op_remove O t c) = t) ->
    (forall t x y, rep t x y (content_in x y s ct) -> c ∈ (content_in x y s ct).*1 -> drop_c (content_in x y s ct) c <> [] -> loses x y t (st_of (op_remove O t c))) ->
    removed g g' (fun x y => filter (fun p => in_square x y s (px p) (py p)) (of_container ct c))
      (fun x y => filter (fun p => in_square x y s (px p) (py p)) (all_points (drop_c ct c))) loses.
  Proof using L.
    intros Hg He HT HS HR H1 H2. assert (Ho : forall k, origin_at g' k = origin_at g k) by (intros k; unfold origin_at; by rewrite Hg).
    assert (HE : forall t x y, rep t x y (content_in x y s ct) -> op_empty O (st_of (op_remove O t c)) = bool_decide (drop_c (content_in x y s ct) c = [])).
    { intros t x y Hr. destruct (tl_remove O m0 rep L _ _ _ _ c Hr) as [_ Hr']. rewrite (tl_empty O m0 rep L _ _ _ _ Hr'). apply bool_decide_ext. rewrite all_points_nil_iff; [done|].
      apply Forall_forall. intros cp [_ Hcp]%elem_of_list_filter. pose proof (content_in_nonempty x y s ct) as HF. rewrite Forall_forall in HF. by apply HF. }
    split; [done|done|..].
    - intros x y t' (k & Hk & Ht'). rewrite Ho in Hk. rewrite HT in Ht'. destruct (tile_at g k) as [t|] eqn:Et; [|done]. exists t. by exists k.
    - intros x y t (k & Hk & Ht) Hgone. exists k. rewrite Ho, HT, Ht. split; [done|]. pose proof (HS k x y Hk) as Hsl. rewrite Ht in Hsl. destruct Hsl as [Hne Hr].
      assert (Hc : c ∉ (content_in x y s ct).*1) by (intros Hc; by apply gone_iff in Hc).
      cbn [rem_slot]. rewrite (HE _ _ _ Hr), (H1 t x y _ Hr Hne Hc). rewrite (drop_c_notin _ _ Hc). rewrite bool_decide_false by done. apply HR.
    - intros x y t' Hrest (k & Hk & Ht'). rewrite Ho in Hk. rewrite HT in Ht'. destruct (tile_at g k) as [t|] eqn:Et; [|done].
      pose proof (HS k x y Hk) as Hsl. rewrite Et in Hsl. destruct Hsl as [Hne Hr]. cbn [rem_slot] in Ht'. rewrite (HE _ _ _ Hr) in Ht'. apply rest_iff in Hrest. by rewrite bool_decide_true in Ht'.
    - intros x y t (k & Hk & Ht) Hgone Hrest. pose proof (HS k x y Hk) as Hsl. rewrite Ht in Hsl. destruct Hsl as [Hne Hr]. rewrite rest_iff in Hrest. apply gone_iff in Hgone.
      exists (st_of (op_remove O t c)). split; [|by apply H2]. exists k. rewrite Ho, HT, Ht. split; [done|]. cbn [rem_slot]. rewrite (HE _ _ _ Hr), bool_decide_false by done. apply HR.
  Qed.
  Lemma root_removed (g : grid T) ct seen ok c : root_inv m0 rep g ct seen ok -> exn_of (g_remove_points O g c) = None ->
    (forall t disk, reload_at O disk SavePoints (Some t) = Some t) ->
    (forall t x y ct', rep t x y ct' -> ct' <> [] -> c ∉ ct'.*1 -> st_of (op_remove O t c) = t) ->
    (forall t x y ct', rep t x y ct' -> ct' <> [] -> Forall (fun e : string * list point => e.2 <> []) ct' -> op_empty O t = false) ->
    let g' := st_of (g_remove_points O g c) in
    g_geom g' = g_geom g /\ m_ext (g_meta g') = m_ext (g_meta g) /\ forall k, tile_at g' k = rem_slot O (g_disk g) c (tile_at g k).
  Proof using L Hs.
    intros HI Hx HR H1 H2 g'. destruct (decide (c ∈ dkeys (m_container (g_meta g)))) as [Hc|Hc].
    - pose proof HI as [HB [(Ht & _)|(Hne & lx & ly & nx & ny & a & P & _ & Hn & _)]].
      + unfold g', g_remove_points. rewrite (proj2 (dmem_true _ _) Hc). cbn [negb].
        assert (He : g_is_empty (g <| g_meta := g_meta g <| m_container := ddel (m_container (g_meta g)) c |> <| m_timestamp := ddel (m_timestamp (g_meta g)) c |> |>) = true) by (unfold g_is_empty; cbn; by rewrite Ht).
        rewrite He. cbn [exn_of st_of]. rewrite He. cbn. split; [done|]. split; [done|]. intros k. unfold tile_at. cbn. by rewrite Ht.
      + apply (removed_slots g ct lx ly nx ny a c P Hn); [by apply HB|done|done|done].
    - unfold g'. rewrite (remove_unknown O g c Hc). cbn [st_of]. split; [done|]. split; [done|]. intros k. destruct (tile_at g k) as [t|] eqn:Et; [|done].
      pose proof HI as [HB [(Ht & _)|(Hne & lx & ly & nx & ny & a & P & _ & Hn & _)]]; [unfold tile_at in Et; by rewrite Ht in Et|].
      assert (Hk : (k < ny * nx)%nat). { unfold tile_at in Et. rewrite (pl_tiles _ _ _ _ _ _ _ _ _ P) in Et. destruct (nflat a !! k) eqn:E; [|done]. apply lookup_lt_Some in E. destruct (pl_slots _ _ _ _ _ _ _ _ _ P) as [E2 _]. lia. }
      pose proof (std_origin m0 _ _ _ _ _ _ (pl_geom _ _ _ _ _ _ _ _ _ P) Hk) as Ho. pose proof (root_loc m0 rep _ _ _ _ _ _ _ HI Ho) as Hsl. rewrite Et in Hsl. destruct Hsl as [Hn' Hr].
      assert (Hc' : c ∉ (content_in (lx + Z.of_nat (k mod nx) * s) (ly + Z.of_nat (k / nx) * s) s ct).*1) by (intros E%content_in_keys; apply Hc; by apply (rb_keys _ _ _ HB)).
      cbn [rem_slot]. rewrite (H1 _ _ _ _ Hr Hn' Hc'). rewrite (H2 _ _ _ _ Hr Hn' (content_in_nonempty _ _ _ _)). by rewrite HR.
  Qed.
End slots.

(** ** Both kinds of grids *)
Lemma removed_ext {T} (g g' : grid T) gone gone' rest rest' (loses loses' : Z -> Z -> T -> T -> Prop) :
  (forall x y, gone x y = gone' x y) -> (forall x y, rest x y = rest' x y) -> (forall x y t t', loses x y t t' -> loses' x y t t') ->
  removed g g' gone rest loses -> removed g g' gone' rest' loses'.
Proof.
  intros E1 E2 E3 [R1 R2 R3 R4 R5 R6]. split; [done|done|done|..].
  - intros x y t. rewrite <- E1. apply R4.
  - intros x y t. rewrite <- E2. apply R5.
  - intros x y t H. rewrite <- E1, <- E2. intros H1 H2. destruct (R6 x y t H H1 H2) as (t' & ? & ?). exists t'. split; [done|]. by apply E3.
Qed.
Lemma of_container_in x y s ct c : of_container (content_in x y s ct) c = filter (here x y s) (of_container ct c).
Proof.
  unfold of_container. rewrite <- content_in_points. f_equal. unfold content_in. induction ct as [|[c1 d] ct IH]; [done|]. cbn [map fst snd].
  rewrite (filter_cons (fun cp : string * list point => cp.2 <> [])). cbn [snd]. rewrite (filter_cons _ (c1, d)). cbn [fst].
  destruct (decide (c1 = c)) as [->|Hn]; cbn [map fst snd].
  - rewrite (filter_cons (fun cp : string * list point => cp.2 <> [])). cbn [snd]. destruct (decide _) as [Hd|Hd]; [|exact IH]. rewrite filter_cons_True by done. by rewrite IH.
  - destruct (decide _) as [Hd|Hd]; [|exact IH]. rewrite filter_cons_False by done. exact IH.
Qed.
Lemma sr_kept disk t : reload_at sr_ops disk SavePoints (Some t) = Some t.
Proof. by destruct disk. Qed.
Lemma sr_untouched size b t x y ct c : sr_rep size b t x y ct -> c ∉ ct.*1 -> st_of (op_remove sr_ops t c) = t.
Proof. intros (_ & [_ _ _ Hc] & _) Hn. cbn. apply remove_other. by rewrite Hc, ranges_keys. Qed.
Lemma sr_removed e size b zarr disk g ct seen ok c : 0 < size -> sr_history e size b zarr disk g ct seen ok -> exn_of (g_remove_points sr_ops g c) = None ->
  removed g (st_of (g_remove_points sr_ops g c)) (fun x y => filter (fun p => in_square x y size (px p) (py p)) (of_container ct c))
    (fun x y => filter (fun p => in_square x y size (px p) (py p)) (all_points (drop_c ct c)))
    (fun x y t t' => lost t c (filter (fun p => in_square x y size (px p) (py p)) (all_points (drop_c ct c))) t').
Proof.
  intros Hs H Hx. pose proof (sr_inv e size b zarr disk Hs _ _ _ _ H) as HI. pose proof (sr_laws (new_sr_meta 0 0 size b zarr)) as L.
  destruct (root_removed sr_ops _ _ L Hs g ct seen ok c HI Hx) as (R1 & R2 & R3).
  { intros. apply sr_kept. }
  { intros t x y ct' HR _. by apply (sr_untouched _ _ _ _ _ _ _ HR). }
  { intros t x y ct' HR Hne Hf. rewrite (tl_empty _ _ _ L _ _ _ _ HR). apply bool_decide_eq_false. by rewrite all_points_nil_iff. }
  apply (removed_all sr_ops (new_sr_meta 0 0 size b zarr) _ L g ct c _ _ R1 R2 R3).
  - intros k x y. apply (root_loc _ _ _ _ _ _ _ _ _ HI).
  - intros. apply sr_kept.
  - intros t x y ct' HR _. by apply (sr_untouched _ _ _ _ _ _ _ HR).
  - intros t x y (_ & HR & _) Hc Hne. cbn [st_of op_remove sr_ops]. pose proof (remove_lost _ _ c HR Hc Hne) as HL. by rewrite <- content_in_drop, content_in_points in HL.
Qed.
Lemma vr_untouched size sub b zarr sg x y ct c : vr_rep size sub b zarr sg x y ct -> c ∉ ct.*1 -> st_of (op_remove vr_ops sg c) = sg.
Proof. intros [HB _] Hn. cbn. rewrite remove_unknown; [done|]. by rewrite <- (cb_keys _ _ _ _ _ _ HB). Qed.
Lemma vr_removed e size sub b zarr disk g ct seen ok c : 0 < size -> 0 < sub -> vr_history e size sub b zarr disk g ct seen ok -> exn_of (g_remove_points vr_ops g c) = None ->
  removed g (st_of (g_remove_points vr_ops g c)) (fun x y => filter (fun p => in_square x y size (px p) (py p)) (of_container ct c))
    (fun x y => filter (fun p => in_square x y size (px p) (py p)) (all_points (drop_c ct c)))
    (fun x y sg sg' => removed sg sg' (fun u v => filter (fun p => in_square x y size (px p) (py p) /\ in_square u v sub (px p) (py p)) (of_container ct c))
      (fun u v => filter (fun p => in_square x y size (px p) (py p) /\ in_square u v sub (px p) (py p)) (all_points (drop_c ct c)))
      (fun u v t t' => lost t c (filter (fun p => in_square x y size (px p) (py p) /\ in_square u v sub (px p) (py p)) (all_points (drop_c ct c))) t')).
Proof.
  intros Hs Hsub H Hx. pose proof (vr_inv e size sub b zarr disk Hs Hsub _ _ _ _ H) as HI. pose proof (vr_laws size sub b zarr Hs Hsub) as L.
  destruct (root_removed vr_ops _ _ L Hs g ct seen ok c HI Hx) as (R1 & R2 & R3).
  { intros sg dk. unfold reload_at. cbn [op_sr vr_ops grid_ops]. by rewrite andb_false_r. }
  { intros sg x y ct' HR _. by apply (vr_untouched _ _ _ _ _ _ _ _ _ HR). }
  { intros sg x y ct' HR Hne Hf. rewrite (tl_empty _ _ _ L _ _ _ _ HR). apply bool_decide_eq_false. by rewrite all_points_nil_iff. }
  apply (removed_all vr_ops (new_vr_meta 0 0 size sub b zarr) _ L g ct c _ _ R1 R2 R3).
  - intros k x y. apply (root_loc _ _ _ _ _ _ _ _ _ HI).
  - intros sg dk. unfold reload_at. cbn [op_sr vr_ops grid_ops]. by rewrite andb_false_r.
  - intros sg x y ct' HR _. by apply (vr_untouched _ _ _ _ _ _ _ _ _ HR).
  - cbn [m_tile_size new_vr_meta new_meta]. intros sg x y HR Hc Hne. cbn [op_remove vr_ops grid_ops]. set (cs := content_in x y size ct) in *.
    pose proof (sr_laws (sub0 size sub b zarr x y)) as L'. pose proof HR as [HB [(_ & E & _)|(Hn & a & P & Hnt & _)]]; [by rewrite E in Hc; apply not_elem_of_nil in Hc|].
    assert (Hxs : exn_of (g_remove_points sr_ops sg c) = None) by (by apply (tl_remove _ _ _ L _ _ _ _ c HR)).
    destruct (removed_slots sr_ops _ _ L' Hsub sg cs _ _ _ _ a c P Hnt (cb_full _ _ _ _ _ _ HB) Hn) as (S1 & S2 & S3); [by apply (cb_keys _ _ _ _ _ _ HB)|done|].
    pose proof (removed_all sr_ops (sub0 size sub b zarr x y) _ L' sg cs c _ (fun u v t t' => lost t c (filter (fun p => in_square x y size (px p) (py p) /\ in_square u v sub (px p) (py p)) (all_points (drop_c ct c))) t') S1 S2 S3) as HA.
    eapply removed_ext; [| | |apply HA].
    + intros u v. unfold cs. rewrite of_container_in. apply (filter_both size sub).
    + intros u v. unfold cs. rewrite <- content_in_drop, content_in_points. apply (filter_both size sub).
    + done.
    + intros k u v Ho. exact (placed_loc _ _ _ _ _ _ _ _ _ _ _ _ P Ho).
    + intros. apply sr_kept.
    + intros t u v ct' HT _. by apply (sr_untouched _ _ _ _ _ _ _ HT).
    + intros t u v (_ & HT & _) Hc' Hne'. cbn [st_of op_remove sr_ops]. pose proof (remove_lost _ _ c HT Hc' Hne') as HL.
      rewrite <- content_in_drop, content_in_points in HL. unfold cs in HL. rewrite <- content_in_drop, content_in_points in HL. by rewrite (filter_both size sub) in HL.
Qed.
