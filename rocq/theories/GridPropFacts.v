(** What the invariants of grids say about locations, tiles, extents and counts. *)
From Verif Require Import Py Nd Numpy Point Bin Algorithms Tile Time Meta Disk Grid GridRun GridQuery GridOps Spec TileExec GridExec.
From Verif Require Import PyFacts NdFacts NumpyFacts BinFacts TileFacts TileGridFacts TileRunFacts TileHistFacts.
From Verif Require Import GridBaseFacts GridPlaceFacts GridInvFacts GridRootFacts GridEvolveFacts GridSrFacts.
Open Scope Z_scope.

Section loc.
  Context {T : Type} (O : tile_ops T) (m0 : gmeta) (rep : T -> Z -> Z -> content -> Prop).
  Notation s := (m_tile_size m0).
  Context (L : tile_laws O m0 rep) (Hs : 0 < s).

  Lemma placed_loc g ct lx ly nx ny a k x y :
    placed m0 rep g ct lx ly nx ny a -> origin_at g k = Some (x, y) ->
    slot_ok rep x y (content_in x y s ct) (tile_at g k).
  Proof.
    intros [Hnx Hny Hg Ha Hr Hc [Hlen Hsl] _] Ho. pose proof (std_origin_bound m0 _ _ _ _ _ _ _ Hg Ho) as Hk.
    rewrite (std_origin m0 _ _ _ _ _ _ Hg Hk) in Ho. injection Ho as <- <-. destruct (flat_div_lt _ _ _ Hk) as [H1 H2].
    destruct (Hsl _ _ H1 H2) as (o & Hl & Hok). rewrite <- flat_split in Hl by lia. unfold tile_at. by rewrite Ha, Hl.
  Qed.
  Lemma placed_origin g ct lx ly nx ny a k t :
    placed m0 rep g ct lx ly nx ny a -> tile_at g k = Some t -> exists x y, origin_at g k = Some (x, y).
  Proof.
    intros [Hnx Hny Hg Ha Hr Hc [Hlen Hsl] _] Ht. unfold tile_at in Ht. rewrite Ha in Ht.
    destruct (nflat a !! k) eqn:Hk; [|done]. apply lookup_lt_Some in Hk. rewrite Hlen in Hk.
    rewrite (std_origin m0 _ _ _ _ _ _ Hg Hk). by eexists _, _.
  Qed.
  Lemma placed_cover g ct lx ly nx ny a p :
    placed m0 rep g ct lx ly nx ny a -> p ∈ all_points ct ->
    exists k x y, origin_at g k = Some (x, y) /\ in_square x y s (px p) (py p) /\
      forall k' x' y', origin_at g k' = Some (x', y') -> in_square x' y' s (px p) (py p) -> k' = k.
  Proof using Hs.
    intros [Hnx Hny Hg Ha Hr Hc _ Hrect] Hp. rewrite Forall_forall in Hrect.
    assert (Hin : in_rect lx ly s nx ny (xy_of p)) by (apply Hrect; by apply (elem_of_list_fmap_1 xy_of)).
    destruct (cell_number_range lx ly s nx ny (xy_of p) Hs Hin) as [Hb0 Hb1].
    set (k := Z.to_nat (cell_number lx ly s nx (xy_of p))).
    assert (Hk : (k < ny * nx)%nat) by (unfold k; lia).
    exists k, (lx + Z.of_nat (k mod nx) * s), (ly + Z.of_nat (k / nx) * s). split; [by apply (std_origin m0 lx ly nx ny)|].
    split; [by apply (in_square_number m0 Hs lx ly nx ny k p Hk Hin)|]. intros k' x' y' Ho Hsq.
    pose proof (std_origin_bound m0 _ _ _ _ _ _ _ Hg Ho) as Hk'.
    rewrite (std_origin m0 _ _ _ _ _ _ Hg Hk') in Ho. injection Ho as <- <-.
    by apply (in_square_number m0 Hs lx ly nx ny k' p Hk' Hin).
  Qed.

  Lemma root_loc g ct seen ok k x y :
    root_inv m0 rep g ct seen ok -> origin_at g k = Some (x, y) -> slot_ok rep x y (content_in x y s ct) (tile_at g k).
  Proof.
    intros [_ [(H1 & -> & _)|(_ & lx & ly & nx & ny & a & P & _)]] Ho; [|by eapply placed_loc].
    unfold tile_at. by rewrite H1.
  Qed.
  Lemma root_origin g ct seen ok k t :
    root_inv m0 rep g ct seen ok -> tile_at g k = Some t -> exists x y, origin_at g k = Some (x, y).
  Proof.
    intros [_ [(H1 & -> & _)|(_ & lx & ly & nx & ny & a & P & _)]] Ht; [|by eapply placed_origin].
    unfold tile_at in Ht. by rewrite H1 in Ht.
  Qed.
  Lemma root_cover g ct seen ok p :
    root_inv m0 rep g ct seen ok -> p ∈ all_points ct ->
    exists k x y, origin_at g k = Some (x, y) /\ in_square x y s (px p) (py p) /\
      forall k' x' y', origin_at g k' = Some (x', y') -> in_square x' y' s (px p) (py p) -> k' = k.
  Proof using Hs.
    intros [_ [(H1 & -> & _)|(_ & lx & ly & nx & ny & a & P & _)]] Hp; [by apply not_elem_of_nil in Hp|by eapply placed_cover].
  Qed.
  Lemma root_has g ct seen ok x y t :
    root_inv m0 rep g ct seen ok -> has_tile g x y t -> content_in x y s ct <> [] /\ rep t x y (content_in x y s ct).
  Proof. intros HI (k & Ho & Ht). pose proof (root_loc _ _ _ _ _ _ _ HI Ho) as H. by rewrite Ht in H. Qed.
  (** Where there are points there is a tile. *)
  Lemma root_has_points g ct seen ok x y k :
    root_inv m0 rep g ct seen ok -> origin_at g k = Some (x, y) -> content_in x y s ct <> [] ->
    exists t, tile_at g k = Some t.
  Proof. intros HI Ho Hne. pose proof (root_loc _ _ _ _ _ _ _ HI Ho) as H. destruct (tile_at g k); [by eexists|done]. Qed.

  Lemma root_count g ct seen ok : root_inv m0 rep g ct seen ok -> g_points_count O g = length (all_points ct).
  Proof using L Hs.
    intros [_ [(H1 & -> & _)|(_ & lx & ly & nx & ny & a & [P1 P2 P3 P4 P5 P6 P7 P8] & _)]].
    - unfold g_points_count, live_tiles. by rewrite H1.
    - exact (slots_count O m0 rep L Hs g a _ _ _ _ ct P4 P7 P8).
  Qed.
  Lemma root_is_empty g ct seen ok : root_inv m0 rep g ct seen ok -> g_is_empty g = bool_decide (ct = []).
  Proof using Hs.
    intros [B [(H1 & -> & _)|(_ & lx & ly & nx & ny & a & [P1 P2 P3 P4 P5 P6 P7 P8] & _)]].
    - unfold g_is_empty. by rewrite H1.
    - exact (slots_is_empty m0 rep Hs g ct _ _ _ _ a P4 P7 P8 (rb_full _ _ _ B)).
  Qed.
  Lemma root_ntiles g ct seen ok :
    root_inv m0 rep g ct seen ok -> ct <> [] -> m_ntiles (g_meta g) = Some (Z.of_nat (length (live_tiles g))).
  Proof.
    intros [_ [(H1 & -> & _)|(_ & lx & ly & nx & ny & a & [P1 P2 P3 P4 P5 P6 P7 P8] & _ & N & _)]] Hne; [done|].
    rewrite N. unfold live_tiles, count_live. by rewrite P4.
  Qed.
  Lemma root_framed g ct seen ok :
    root_inv m0 rep g ct seen ok -> ct <> [] -> exists lx ly nx ny, framed m0 g lx ly nx ny /\
      Forall (in_rect lx ly s nx ny) (map xy_of seen) /\ (forall p, p ∈ all_points ct -> p ∈ seen) /\ (0 < nx)%nat /\ (0 < ny)%nat.
  Proof.
    intros [_ [(H1 & -> & _)|(_ & lx & ly & nx & ny & a & [P1 P2 P3 P4 P5 P6 P7 P8] & F & N & S1 & S2 & _)]] Hne; [done|].
    by exists lx, ly, nx, ny.
  Qed.
  Lemma live_tile_at (g : grid T) t : t ∈ live_tiles g -> exists k, tile_at g k = Some t.
  Proof.
    unfold live_tiles, tile_at. destruct (g_tiles g) as [a|]; [|by intros H%not_elem_of_nil].
    intros (o & Ho & Hid)%elem_of_list_omap. cbn in Hid. subst o. apply elem_of_list_lookup in Ho as [k Hk]. exists k. by rewrite Hk.
  Qed.
  Lemma tile_at_live (g : grid T) k t : tile_at g k = Some t -> t ∈ live_tiles g.
  Proof.
    unfold live_tiles, tile_at. destruct (g_tiles g) as [a|]; [|done]. intros H.
    apply elem_of_list_omap. destruct (nflat a !! k) as [o|] eqn:E; [|done]. cbn in H. subst o. exists (Some t). split; [|done].
    by eapply elem_of_list_lookup_2.
  Qed.
End loc.

(** Data inside the extents: they grow by exactly one tile at the upper sides. *)
Section extents.
  Context {T : Type} (O : tile_ops T) (m0 : gmeta) (rep : T -> Z -> Z -> content -> Prop).
  Notation s := (m_tile_size m0).
  Context (L : tile_laws O m0 rep) (Hs : 0 < s).
  Context (Hgrow : m_can_grow m0 = true) (Hox : m_origin_x m0 = 0) (Hoy : m_origin_y m0 = 0).

  Lemma adjust_lo_fix v : v mod s = 0 -> adjust_lo v 0 s = v.
  Proof using Hs. intros H. unfold adjust_lo, floor_div. rewrite Z.sub_0_r. pose proof (Z.div_mod v s ltac:(lia)). lia. Qed.
  Lemma adjust_hi_fix v : v mod s = 0 -> adjust_hi v 0 s = v + s.
  Proof using Hs.
    intros H. unfold adjust_hi. rewrite Z.sub_0_r. apply Z.div_exact in H; [|lia].
    assert (E : ceil_div v s * s = v).
    { pose proof (ceil_div_spec v s Hs) as Hc. set (q := v / s) in *. clearbody q. set (c := ceil_div v s) in *. clearbody c. subst v.
      assert (c = q) by nia. nia. }
    rewrite E, Z.eqb_refl. done.
  Qed.
  Lemma zmin_in l v : zmin l = Some v -> v ∈ l.
  Proof.
    unfold zmin. destruct l as [|a l]; [done|]. intros [= <-]. revert a. induction l as [|b l IH]; intros a; cbn; [left|].
    destruct (Z.min_dec a b) as [E|E]; rewrite E; [specialize (IH a)|specialize (IH b)]; rewrite !elem_of_cons in *; tauto.
  Qed.
  Lemma zmax_in l v : zmax l = Some v -> v ∈ l.
  Proof.
    unfold zmax. destruct l as [|a l]; [done|]. intros [= <-]. revert a. induction l as [|b l IH]; intros a; cbn; [left|].
    destruct (Z.max_dec a b) as [E|E]; rewrite E; [specialize (IH a)|specialize (IH b)]; rewrite !elem_of_cons in *; tauto.
  Qed.

  (** The extents after a successful add. *)
  Lemma add_extents g ct seen ok d args :
    root_inv m0 rep g ct seen ok -> exn_of (g_add_points O g (GoodData d) args) = None ->
    exists x, data_ext d = Ok x /\
      m_ext (g_meta (st_of (g_add_points O g (GoodData d) args))) =
        Some (adjust_extents m0 (match g_tiles g, m_ext (g_meta g) with
                                 | Some _, Some y => Ext (Z.min (x0 x) (x0 y)) (Z.min (y0 x) (y0 y)) (Z.max (x1 x) (x1 y)) (Z.max (y1 x) (y1 y))
                                 | _, _ => x end)).
  Proof using L Hs Hgrow Hox Hoy.
    intros HI Hx. pose proof HI as [[B1 B2 B3 B4] Hst]. revert Hx. unfold g_add_points.
    destruct (dmem _ _); [done|]. destruct (update_metadata _ _) as [m1 [e|]] eqn:Hu; [done|].
    destruct (update_metadata_spec _ _ _ _ Hu) as (F & Ue & _).
    assert (Hm1 : meta_frame m0 m1) by (by eapply meta_frame_trans).
    set (g1 := g <| g_meta := m1 |>). destruct (update_base_grid g1 d) as [g2 [e|]] eqn:Hb; [done|].
    destruct (place_tiles g2) as [g3 [e|]] eqn:Hp; [done|].
    assert (H32 : m_ext (g_meta g3) = m_ext (g_meta g2)).
    { revert Hp. unfold place_tiles. repeat case_match; intros; simplify_eq; done. }
    assert (Ha : m_ext (g_meta (st_of (add_points_to_tiles O g3 d args))) = m_ext (g_meta g3)).
    { unfold add_points_to_tiles. repeat case_match; done. }
    assert (Hbg : forall x, build_grid g1 x = (g2, None) -> m_ext (g_meta g2) = Some (adjust_extents m0 x)).
    { intros x. unfold build_grid. cbv zeta.
      assert (Eadj : adjust_extents (g_meta g1) x = adjust_extents m0 x).
      { unfold adjust_extents. cbn. rewrite (mf_grow _ _ Hm1), (mf_size _ _ Hm1), (mf_ox _ _ Hm1), (mf_oy _ _ Hm1). done. }
      rewrite Eadj. repeat case_match; intros; simplify_eq; done. }
    assert (Hemp : g_is_empty g1 = match g_tiles g with Some _ => false | None => true end).
    { destruct Hst as [(E1 & _)|(Hne & lx & ly & nx & ny & a & P & _)].
      - rewrite E1. unfold g_is_empty. cbn. by rewrite E1.
      - pose proof P as [P1 P2 P3 P4 P5 P6 P7 P8].
        rewrite P4. change (g_is_empty g1) with (g_is_empty g).
        rewrite (slots_is_empty m0 rep Hs g ct _ _ _ _ a P4 P7 P8 B4). by rewrite bool_decide_eq_false_2. }
    unfold update_base_grid in Hb. rewrite Hemp in Hb. change (m_can_grow (g_meta g1)) with (m_can_grow m1) in Hb.
    rewrite (mf_grow _ _ Hm1), Hgrow in Hb. change (m_ext (g_meta g1)) with (m_ext m1) in Hb. rewrite Ue in Hb.
    destruct (data_ext d) as [x|] eqn:Hd; [|destruct (g_tiles g); cbn in Hb; done].
    intros Hx. exists x. split; [done|].
    assert (Hgoal : m_ext (g_meta g2) = Some (adjust_extents m0 (match g_tiles g, m_ext (g_meta g) with
                                 | Some _, Some y => Ext (Z.min (x0 x) (x0 y)) (Z.min (y0 x) (y0 y)) (Z.max (x1 x) (x1 y)) (Z.max (y1 x) (y1 y))
                                 | _, _ => x end))).
    { destruct (g_tiles g); cbn in Hb; [|by apply Hbg]. destruct (m_ext (g_meta g)); cbn in Hb; [by apply Hbg|done]. }
    rewrite <- Hgoal, <- H32, <- Ha. destruct (exn_of (add_points_to_tiles O g3 d args)) eqn:E; [rewrite E in Hx; done|done].
  Qed.

  Lemma add_inside g ct seen ok d args X0 Y0 X1 Y1 :
    root_inv m0 rep g ct seen ok -> ct <> [] -> exn_of (g_add_points O g (GoodData d) args) = None ->
    m_ext (g_meta g) = Some (Ext X0 Y0 X1 Y1) ->
    Forall (fun p => X0 <= px p <= X1 /\ Y0 <= py p <= Y1) d ->
    m_ext (g_meta (st_of (g_add_points O g (GoodData d) args))) = Some (Ext X0 Y0 (X1 + s) (Y1 + s)).
  Proof using L Hs Hgrow Hox Hoy.
    intros HI Hne Hx He Hin. destruct (add_extents _ _ _ _ _ _ HI Hx) as (x & Hd & ->).
    destruct (root_framed m0 rep _ _ _ _ HI Hne) as (lx & ly & nx & ny & (M1 & M2 & E & _) & _).
    rewrite He in E. injection E as -> -> -> ->.
    assert (Ht : exists a, g_tiles g = Some a).
    { destruct HI as [_ [(_ & -> & _)|(_ & ? & ? & ? & ? & a & [] & _)]]; [done|by exists a]. }
    destruct Ht as [a ->]. rewrite He. f_equal.
    assert (Hb : lx <= x0 x /\ ly <= y0 x /\ x1 x <= lx + Z.of_nat nx * s /\ y1 x <= ly + Z.of_nat ny * s).
    { rewrite Forall_forall in Hin. unfold data_ext in Hd.
      destruct (zmin (map px d)) as [u1|] eqn:Z1; [|done]. destruct (zmin (map py d)) as [u2|] eqn:Z2; [|done].
      destruct (zmax (map px d)) as [u3|] eqn:Z3; [|done]. destruct (zmax (map py d)) as [u4|] eqn:Z4; [|done].
      injection Hd as <-. cbn.
      apply zmin_in, elem_of_list_fmap in Z1 as (p1 & -> & Q1). apply zmin_in, elem_of_list_fmap in Z2 as (p2 & -> & Q2).
      apply zmax_in, elem_of_list_fmap in Z3 as (p3 & -> & Q3). apply zmax_in, elem_of_list_fmap in Z4 as (p4 & -> & Q4).
      apply Hin in Q1, Q2, Q3, Q4. lia. }
    unfold adjust_extents. rewrite Hgrow, Hox, Hoy. cbn [x0 y0 x1 y1].
    rewrite !Z.min_r, !Z.max_r by lia. rewrite !adjust_lo_fix by done.
    rewrite !adjust_hi_fix; [done|rewrite Z.add_mod, Z.mod_mul by lia; rewrite M2; by rewrite Z.mod_0_l by lia|].
    rewrite Z.add_mod, Z.mod_mul by lia. rewrite M1. by rewrite Z.mod_0_l by lia.
  Qed.
End extents.

(** A grid that holds nothing builds the same tiles as any other such grid of the same kind. *)
Section fresh.
  Context {T : Type} (O : tile_ops T) (m0 : gmeta).
  Context (Hbuild : forall m disk x y, meta_frame m0 m -> op_build O m disk x y = op_build O m0 disk x y).

  Lemma oloop_ext {A S} (f f' : S -> A -> out S) l st : (forall s a, f s a = f' s a) -> oloop f l st = oloop f' l st.
  Proof. intros H. revert st. induction l as [|a l IH]; intros st; cbn; [done|]. rewrite H. case_match; [done|]. by rewrite IH. Qed.

  (** The parts of a grid that the placing of points depends on. *)
  Definition like (g g' : grid T) : Prop :=
    g_geom g = g_geom g' /\ g_tiles g = g_tiles g' /\ m_ext (g_meta g) = m_ext (g_meta g') /\
    m_width (g_meta g) = m_width (g_meta g') /\ m_height (g_meta g) = m_height (g_meta g') /\
    m_max_tiles (g_meta g) = m_max_tiles (g_meta g').

  Lemma fresh_base g g' d :
    meta_frame m0 (g_meta g) -> meta_frame m0 (g_meta g') -> g_tiles g = None -> g_tiles g' = None -> m_can_grow m0 = true ->
    (update_base_grid g d).2 = None -> (update_base_grid g' d).2 = None ->
    like (update_base_grid g d).1 (update_base_grid g' d).1 /\ g_tiles (update_base_grid g d).1 = None /\
    meta_frame m0 (g_meta (update_base_grid g d).1) /\ meta_frame m0 (g_meta (update_base_grid g' d).1) /\
    g_disk (update_base_grid g d).1 = g_disk g /\ g_disk (update_base_grid g' d).1 = g_disk g'.
  Proof.
    intros M M' Ht Ht' Hg. unfold update_base_grid.
    assert (E : g_is_empty g = true) by (unfold g_is_empty; by rewrite Ht).
    assert (E' : g_is_empty g' = true) by (unfold g_is_empty; by rewrite Ht').
    rewrite E, E', (mf_grow _ _ M), (mf_grow _ _ M'), Hg. destruct (data_ext d) as [x|]; [|done].
    unfold build_grid. cbv zeta. rewrite E, E'. cbn [negb andb].
    assert (A : adjust_extents (g_meta g) x = adjust_extents m0 x)
      by (unfold adjust_extents; rewrite (mf_grow _ _ M), (mf_size _ _ M), (mf_ox _ _ M), (mf_oy _ _ M); done).
    assert (A' : adjust_extents (g_meta g') x = adjust_extents m0 x)
      by (unfold adjust_extents; rewrite (mf_grow _ _ M'), (mf_size _ _ M'), (mf_ox _ _ M'), (mf_oy _ _ M'); done).
    rewrite A, A', (mf_size _ _ M), (mf_size _ _ M').
    destruct (with_last_edge (arange (x0 _) _ _) _); [|done]. destruct (with_last_edge (arange (y0 _) _ _) _); [|done].
    unfold like. cbn. intros _ _. split; [split; [done|]; split; [by rewrite Ht, Ht'|done]|]. split; [done|].
    split; [destruct M; by split|]. split; [destruct M'; by split|done].
  Qed.

  Lemma fresh_add g g' d a :
    meta_frame m0 (g_meta g) -> meta_frame m0 (g_meta g') -> g_tiles g = None -> g_tiles g' = None -> m_can_grow m0 = true ->
    g_disk g = g_disk g' ->
    exn_of (g_add_points O g (GoodData d) a) = None -> exn_of (g_add_points O g' (GoodData d) a) = None ->
    let r := st_of (g_add_points O g (GoodData d) a) in
    let r' := st_of (g_add_points O g' (GoodData d) a) in
    like r r' /\ m_ntiles (g_meta r) = m_ntiles (g_meta r') /\ m_mean_depth (g_meta r) = m_mean_depth (g_meta r').
  Proof using Hbuild.
    intros M M' Ht Ht' Hg Hdk. unfold g_add_points.
    destruct (dmem (m_container (g_meta g)) _); [done|]. destruct (dmem (m_container (g_meta g')) _); [done|].
    destruct (update_metadata (g_meta g) a) as [m1 [e|]] eqn:Hu; [done|].
    destruct (update_metadata (g_meta g') a) as [m1' [e|]] eqn:Hu'; [done|].
    pose proof (proj1 (update_metadata_spec _ _ _ _ Hu)) as F. pose proof (proj1 (update_metadata_spec _ _ _ _ Hu')) as F'.
    pose proof (fresh_base (g <| g_meta := m1 |>) (g' <| g_meta := m1' |>) d) as HB.
    destruct (update_base_grid (g <| g_meta := m1 |>) d) as [g2 [e|]]; [done|].
    destruct (update_base_grid (g' <| g_meta := m1' |>) d) as [g2' [e|]]; [done|].
    destruct HB as ((L1 & L2 & L3 & L4 & L5 & L6) & T2 & M2 & M2' & D2 & D2'); try done; [exact (meta_frame_trans _ _ _ M F)|exact (meta_frame_trans _ _ _ M' F')|].
    cbn [fst snd] in *. cbn in D2, D2'. unfold place_tiles. rewrite <- L1. destruct (g_geom g2) as [ge|] eqn:Hge; [|done].
    assert (E : g_is_empty g2 = true) by (unfold g_is_empty; by rewrite T2).
    assert (E' : g_is_empty g2' = true) by (unfold g_is_empty; by rewrite <- L2, T2).
    rewrite E, E'. unfold add_points_to_tiles.
    change (g_geom (g2 <| g_tiles := Some (nd_full (nrows (gx ge)) (ncols (gx ge)) None) |>)) with (g_geom g2).
    change (g_geom (g2' <| g_tiles := Some (nd_full (nrows (gx ge)) (ncols (gx ge)) None) |>)) with (g_geom g2').
    rewrite <- L1, Hge.
    change (g_tiles (g2 <| g_tiles := Some (nd_full (nrows (gx ge)) (ncols (gx ge)) None) |>)) with (Some (nd_full (nrows (gx ge)) (ncols (gx ge)) (@None T))).
    change (g_tiles (g2' <| g_tiles := Some (nd_full (nrows (gx ge)) (ncols (gx ge)) None) |>)) with (Some (nd_full (nrows (gx ge)) (ncols (gx ge)) (@None T))).
    destruct (bin2d_with_indices _ _ _) as [bn|]; [|done].
    change (g_meta (g2 <| g_tiles := Some (nd_full (nrows (gx ge)) (ncols (gx ge)) None) |>)) with (g_meta g2).
    change (g_meta (g2' <| g_tiles := Some (nd_full (nrows (gx ge)) (ncols (gx ge)) None) |>)) with (g_meta g2').
    change (g_disk (g2 <| g_tiles := Some (nd_full (nrows (gx ge)) (ncols (gx ge)) None) |>)) with (g_disk g2).
    change (g_disk (g2' <| g_tiles := Some (nd_full (nrows (gx ge)) (ncols (gx ge)) None) |>)) with (g_disk g2').
    rewrite D2, D2', Hdk.
    rewrite (oloop_ext (add_to_tile O (g_meta g2) (g_disk g') ge a d bn) (add_to_tile O (g_meta g2') (g_disk g') ge a d bn)).
    2:{ intros fl ul. unfold add_to_tile. destruct (fl !! _) as [cur|]; [|done].
        destruct (nflat (gx ge) !! _) as [x|]; [|done]. destruct (nflat (gy ge) !! _) as [y|]; [|done].
        by rewrite (Hbuild (g_meta g2)), (Hbuild (g_meta g2')) by done. }
    set (R := oloop _ _ _). clearbody R. destruct (exn_of R); [done|]. intros _ _. cbn.
    split; [|done]. unfold like. cbn. split; [congruence|]. done.
  Qed.
End fresh.

(** ** Tiles that receive points *)
Lemma layer_of_clear t rs r name :
  name ∉ ["x_slope"; "y_slope"] -> layer_of (clear_temp_all t rs) r name = layer_of t r name.
Proof.
  intros Hn. rewrite clear_temp_all_eq. unfold layer_of. cbn. rewrite dget_clear_temp_cells.
  destruct (dget (t_cells t) r) as [l|]; [|done]. cbn. revert l. induction rs as [|r' rs IH]; intros l; cbn; [done|].
  rewrite IH. case_decide; [|done]. unfold clear_temp_layers. rewrite !dget_ddel.
  rewrite !elem_of_cons in Hn. rewrite !decide_False by tauto. done.
Qed.
Lemma t_add_gained t ct d c : tile_rep t ct -> c ∉ ct.*1 -> gained t d c (t_add_points t d c).
Proof.
  intros HR Hc. unfold gained. pose proof (t_add_frame t d c) as (F1 & F2 & F3 & F4).
  assert (Hk : c ∉ dkeys (t_container t)).
  { rewrite (tr_cont _ _ HR). intros H. apply Hc. clear -H. revert H. generalize 0%nat as o.
    induction ct as [|[k l] ct IH]; intros o H; [done|]. cbn in H. unfold dkeys in H. cbn in H. cbn.
    apply elem_of_cons in H as [->|H]; [left|right]. by eapply IH. }
  split; [done|]. split; [done|]. split; [done|]. split; [done|].
  unfold t_add_points. destruct (t_data t) as [dt|] eqn:E.
  - rewrite (proj2 (dmem_false _ _) Hk). rewrite E. cbn [default]. rewrite dset_new by done. rewrite app_length.
    split; [by rewrite clear_temp_all_eq|]. split; [by rewrite clear_temp_all_eq|]. split; [by rewrite clear_temp_all_eq|].
    intros r name Hn. exact (layer_of_clear _ _ r name Hn).
  - cbn. split; [done|]. split; [done|]. split; [|done]. apply (tr_none _ _ HR) in E. subst ct. by rewrite (tr_cont _ _ HR).
Qed.
Lemma sr_grown disk s b args d x y t t' ct m :
  sr_rep s b t x y ct -> a_container args ∉ ct.*1 -> m_tile_size m = s -> grown_tile sr_ops m disk args d x y t t' ->
  gains t (filter (fun p => in_square x y s (px p) (py p)) d) (a_container args) t'.
Proof.
  intros (H1 & H2 & H3) Hc Hm. unfold grown_tile, gains. rewrite Hm. destruct (filter _ d) as [|p l] eqn:E; [by left|].
  intros Ht. right. split; [done|]. unfold reload_at in Ht. cbn in Ht. rewrite andb_true_r in Ht.
  assert (t' = t_add_points t (p :: l) (a_container args)) as -> by (by destruct disk; cbn in Ht; injection Ht as ->).
  by eapply t_add_gained.
Qed.
