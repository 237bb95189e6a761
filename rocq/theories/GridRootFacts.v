(** Adding and removing points at a grid that grows (SRGrid, VRGridTile). *)
From Verif Require Import Py Nd Numpy Point Bin Algorithms Tile Time Meta Disk Grid Spec GridExec.
From Verif Require Import PyFacts NdFacts NumpyFacts BinFacts TileFacts TileRunFacts GridBaseFacts GridPlaceFacts GridInvFacts.
Open Scope Z_scope.

Section root.
  Context {T : Type} (O : tile_ops T) (m0 : gmeta) (rep : T -> Z -> Z -> content -> Prop).
  Notation s := (m_tile_size m0).
  Context (L : tile_laws O m0 rep) (Hs : 0 < s).
  Context (Hgrow : m_can_grow m0 = true) (Hox : m_origin_x m0 = 0) (Hoy : m_origin_y m0 = 0).
  Notation placed := (placed m0 rep).

  (** The extents match the tile array and are aligned to the tile size. *)
  Definition framed (g : grid T) (lx ly : Z) (nx ny : nat) : Prop :=
    lx mod s = 0 /\ ly mod s = 0 /\ m_ext (g_meta g) = Some (Ext lx ly (lx + Z.of_nat nx * s) (ly + Z.of_nat ny * s)) /\
    m_width (g_meta g) = Some (Z.of_nat nx * s) /\ m_height (g_meta g) = Some (Z.of_nat ny * s).

  (** The first points of an empty grid. *)
  Lemma grow_empty g d :
    meta_frame m0 (g_meta g) -> g_tiles g = None -> d <> [] ->
    exists lx ly nx ny, (0 < nx)%nat /\ (0 < ny)%nat /\
      let g2 := built m0 g (g_mask g) lx ly nx ny in
      let g3 := g2 <| g_tiles := Some (nd_full ny nx None) |> in
      update_base_grid g d = (g2, None) /\ place_tiles g2 = (g3, None) /\ framed g3 lx ly nx ny /\
      placed g3 [] lx ly nx ny (nd_full ny nx None) /\ Forall (in_rect lx ly s nx ny) (map xy_of d).
  Proof using L Hs Hgrow Hox Hoy.
    intros Hm Ht Hd. destruct (data_ext_Ok d Hd) as (x & Hx & Hin).
    assert (He : g_is_empty g = true) by (unfold g_is_empty; by rewrite Ht).
    destruct (exists_cons _ Hd) as (p & d' & ->).
    assert (Hp : in_ext x p) by (by apply Forall_cons in Hin as [? _]).
    destruct (adjust_ext_spec m0 Hs Hgrow Hox Hoy (g_meta g) x Hm) as (lx & ly & nx & ny & Hnx & Hny & Mx & My & Hadj & A1 & A2 & A3 & A4 & _);
      [destruct Hp; lia|destruct Hp; lia|].
    exists lx, ly, nx, ny. split; [done|]. split; [done|]. cbv zeta.
    assert (Hb : build_grid g x = (built m0 g (g_mask g) lx ly nx ny, None)).
    { apply (build_grid_adjusted O m0 rep L Hs); try done. by rewrite He. }
    split; [|split; [|split; [|split]]].
    - unfold update_base_grid. rewrite He, (mf_grow _ _ Hm), Hgrow, Hx. exact Hb.
    - unfold place_tiles. change (g_geom (built _ _ _ _ _ _ _)) with (Some (std_geom lx ly s nx ny)).
      assert (He2 : g_is_empty (built m0 g (g_mask g) lx ly nx ny) = true) by (unfold g_is_empty; cbn; by rewrite Ht).
      rewrite He2. cbn [std_geom gx meshgrid_x nrows ncols]. by rewrite !uniform_length.
    - split; done.
    - split; try done. apply slots_empty. constructor.
    - apply Forall_fmap. eapply Forall_impl; [exact Hin|]. intros q [Q1 Q2]. unfold in_rect, xy_of. cbn. lia.
  Qed.

  (** More points for a grid that has some: the arrays grow, the tiles stay where they are. *)
  Lemma grow_placed g ct lx ly nx ny a d :
    meta_frame m0 (g_meta g) -> placed g ct lx ly nx ny a -> framed g lx ly nx ny -> all_points ct <> [] -> d <> [] ->
    exists lx' ly' nx' ny' r0 c0 k a', (0 < nx')%nat /\ (0 < ny')%nat /\
      let g2 := built m0 g (Some k) lx' ly' nx' ny' in
      let g3 := g2 <| g_tiles := Some a' |> in
      update_base_grid g d = (g2, None) /\ place_tiles g2 = (g3, None) /\ framed g3 lx' ly' nx' ny' /\
      placed g3 ct lx' ly' nx' ny' a' /\ Forall (in_rect lx' ly' s nx' ny') (map xy_of d) /\
      (forall q, in_rect lx ly s nx ny q -> in_rect lx' ly' s nx' ny' q) /\
      length (nflat k) = (ny' * nx')%nat /\
      lx = lx' + Z.of_nat c0 * s /\ ly = ly' + Z.of_nat r0 * s /\ (c0 + nx <= nx')%nat /\ (r0 + ny <= ny')%nat /\
      (forall r c, (r < ny)%nat -> (c < nx)%nat -> nflat a' !! ((r0 + r) * nx' + (c0 + c))%nat = nflat a !! (r * nx + c)%nat) /\
      (forall r c, (r < ny')%nat -> (c < nx')%nat -> ~ (r0 <= r < r0 + ny /\ c0 <= c < c0 + nx)%nat ->
         nflat a' !! (r * nx' + c)%nat = Some None).
  Proof using L Hs Hgrow Hox Hoy.
    intros Hm Hpl (Mx & My & Hex & Hw & Hh) Hne Hd. destruct (data_ext_Ok d Hd) as (x & Hx & Hin).
    pose proof Hpl as [Hnx Hny Hge Ha Hr Hc Hsl Hrect].
    assert (He : g_is_empty g = false).
    { edestruct (slots_live m0 rep Hs) as (k & t & Hk); [done..|]. by eapply (not_empty_live g a). }
    set (xj := Ext (Z.min (x0 x) lx) (Z.min (y0 x) ly) (Z.max (x1 x) (lx + Z.of_nat nx * s)) (Z.max (y1 x) (ly + Z.of_nat ny * s))).
    destruct (adjust_ext_spec m0 Hs Hgrow Hox Hoy (g_meta g) xj Hm) as (lx' & ly' & nx' & ny' & Hnx' & Hny' & Mx' & My' & Hadj & A1 & A2 & A3 & A4 & _);
      [unfold xj; cbn; nia|unfold xj; cbn; nia|]. unfold xj in A1, A2, A3, A4; cbn in A1, A2, A3, A4.
    assert (exists c0, lx = lx' + Z.of_nat c0 * s) as [c0 Hc0].
    { exists (Z.to_nat ((lx - lx') / s)). pose proof (Z.div_mod lx s). pose proof (Z.div_mod lx' s).
      replace (lx - lx') with ((lx / s - lx' / s) * s) by lia. rewrite Z.div_mul by lia. nia. }
    assert (exists r0, ly = ly' + Z.of_nat r0 * s) as [r0 Hr0].
    { exists (Z.to_nat ((ly - ly') / s)). pose proof (Z.div_mod ly s). pose proof (Z.div_mod ly' s).
      replace (ly - ly') with ((ly / s - ly' / s) * s) by lia. rewrite Z.div_mul by lia. nia. }
    assert (Hcx : (c0 + nx <= nx')%nat) by nia. assert (Hry : (r0 + ny <= ny')%nat) by nia.
    destruct (existing_mask_spec O m0 rep L Hs g lx ly nx ny lx' ly' nx' ny' r0 c0) as (k & Hk & Kr & Kc & Kl & Km); [done..|].
    destruct (mask_assign_rect nx' ny' r0 c0 nx ny (nflat k) Hcx Hry Km None (replicate (ny' * nx') None) (nflat a))
      as (fl' & M1 & M2 & M3 & M4); [done|by rewrite replicate_length|by destruct Hsl|].
    exists lx', ly', nx', ny', r0, c0, k, (Nd ny' nx' fl'). split; [done|]. split; [done|]. cbv zeta.
    assert (Hout : forall r c, (r < ny')%nat -> (c < nx')%nat -> ~ (r0 <= r < r0 + ny /\ c0 <= c < c0 + nx)%nat ->
         fl' !! (r * nx' + c)%nat = Some None).
    { intros r c H1 H2 H3. rewrite M4 by done. apply lookup_replicate_2. by apply flat_lt. }
    assert (Hb : build_grid g xj = (built m0 g (Some k) lx' ly' nx' ny', None)).
    { apply (build_grid_adjusted O m0 rep L Hs); try done. rewrite He, (mf_grow _ _ Hm), Hgrow. cbn [negb andb]. by rewrite Hk. }
    assert (Hincl : forall q, in_rect lx ly s nx ny q -> in_rect lx' ly' s nx' ny' q).
    { intros q. unfold in_rect. nia. }
    split; [|split; [|split; [|split; [|split; [|split]]]]].
    - unfold update_base_grid. rewrite He, (mf_grow _ _ Hm), Hgrow, Hx, Hex. cbn [rbind join_ext x0 x1 y0 y1]. exact Hb.
    - unfold place_tiles. change (g_geom (built _ _ _ _ _ _ _)) with (Some (std_geom lx' ly' s nx' ny')).
      assert (He2 : g_is_empty (built m0 g (Some k) lx' ly' nx' ny') = false) by (unfold g_is_empty in *; cbn; done).
      rewrite He2. cbn [std_geom gx meshgrid_x nrows ncols]. rewrite !uniform_length.
      change (m_can_grow (g_meta (built _ _ _ _ _ _ _))) with (m_can_grow (g_meta g)).
      rewrite (mf_grow _ _ Hm), Hgrow. change (g_mask (built _ _ _ _ _ _ _)) with (Some k). change (g_tiles (built _ _ _ _ _ _ _)) with (g_tiles g).
      rewrite Ha, M1. done.
    - split; done.
    - split; try done.
      + by eapply (slots_grow O m0 rep L Hs).
      + apply Forall_fmap. apply (Forall_fmap xy_of) in Hrect. eapply Forall_impl; [exact Hrect|]. intros q. cbn. apply Hincl.
    - apply Forall_fmap. eapply Forall_impl; [exact Hin|]. intros q [Q1 Q2]. unfold in_rect, xy_of. cbn. lia.
    - done.
    - done.
  Qed.

  Record root_base (g : grid T) (ct : content) : Prop := {
    rb_meta : meta_frame m0 (g_meta g);
    rb_keys : forall c, c ∈ ct.*1 -> c ∈ dkeys (m_container (g_meta g));
    rb_nodup : NoDup ct.*1;
    rb_full : Forall (fun e : string * list point => e.2 <> []) ct }.
  Definition root_empty (g : grid T) (ct : content) (seen : list point) (ok : bool) : Prop :=
    g_tiles g = None /\ ct = [] /\ seen = [] /\ (m_ntiles (g_meta g) = None \/ m_ntiles (g_meta g) = Some 0) /\
    (ok = true -> mask_clear (g_mask g)).
  Definition root_placed (g : grid T) (ct : content) (seen : list point) (ok : bool) : Prop :=
    ct <> [] /\ exists lx ly nx ny a, placed g ct lx ly nx ny a /\ framed g lx ly nx ny /\
      m_ntiles (g_meta g) = Some (count_live (nflat a)) /\
      Forall (in_rect lx ly s nx ny) (map xy_of seen) /\ (forall p, p ∈ all_points ct -> p ∈ seen) /\
      (ok = true -> mask_fits g (ny * nx)).
  Definition root_inv (g : grid T) (ct : content) (seen : list point) (ok : bool) : Prop :=
    root_base g ct /\ (root_empty g ct seen ok \/ root_placed g ct seen ok).

  Lemma root_new disk : m_ntiles m0 = None -> root_inv (new_grid_obj m0 disk) [] [] true.
  Proof.
    intros Hn. split; [|left; split; [done|]; split; [done|]; split; [done|]; split; [by left|done]].
    split; cbn; [apply meta_frame_refl| |apply NoDup_nil_2|constructor]. intros c Hc. by apply not_elem_of_nil in Hc.
  Qed.

  (** Only attributes other than these change: the state stays what it was. *)
  Lemma root_inv_meta g m ct seen ok :
    root_inv g ct seen ok -> meta_frame (g_meta g) m -> m_ext m = m_ext (g_meta g) -> m_width m = m_width (g_meta g) ->
    m_height m = m_height (g_meta g) -> m_ntiles m = m_ntiles (g_meta g) ->
    (forall c, c ∈ dkeys (m_container (g_meta g)) -> c ∈ dkeys (m_container m)) ->
    root_inv (g <| g_meta := m |>) ct seen ok.
  Proof.
    intros [[B1 B2 B3 B4] Hst] Hf He Hw Hh Hn Hk. split.
    - split; cbn; [by eapply meta_frame_trans|by auto|done|done].
    - destruct Hst as [(E1 & E2 & E3 & E4 & E5)|(Hne & lx & ly & nx & ny & a & P & F & N & S1 & S2 & S3)].
      + left. unfold root_empty. cbn. by rewrite Hn.
      + right. split; [done|]. exists lx, ly, nx, ny, a. destruct P, F as (F1 & F2 & F3 & F4 & F5).
        split; [by split|]. split; [split; [done|]; split; [done|]; cbn; by rewrite He, Hw, Hh|]. cbn. by rewrite Hn.
  Qed.

  Lemma add_points_exn g d args g2 g3 m1 :
    a_container args ∉ dkeys (m_container (g_meta g)) -> update_metadata (g_meta g) args = (m1, None) ->
    update_base_grid (g <| g_meta := m1 |>) d = (g2, None) -> place_tiles g2 = (g3, None) ->
    exn_of (add_points_to_tiles O g3 d args) = None ->
    g_add_points O g (GoodData d) args =
      Out (st_of (add_points_to_tiles O g3 d args) <| g_meta := g_meta (st_of (add_points_to_tiles O g3 d args)) <| m_mean_depth := batch_mean_depth d |> |>)
          (ev_of (add_points_to_tiles O g3 d args)) None.
  Proof.
    intros H1 H2 H3 H4 H5. unfold g_add_points. rewrite (proj2 (dmem_false _ _) H1), H2, H3, H4, H5. done.
  Qed.

  Lemma root_add g ct seen ok inp args :
    root_inv g ct seen ok ->
    let out := g_add_points O g inp args in
    (exn_of out <> None /\ root_inv (st_of out) ct seen ok /\
     exists m1, st_of out = g <| g_meta := m1 |> /\
       m1.(m_ext) = m_ext (g_meta g) /\ m_ntiles m1 = m_ntiles (g_meta g)) \/
    (exists d m1, inp = GoodData d /\ d <> [] /\ a_container args ∉ dkeys (m_container (g_meta g)) /\
      update_metadata (g_meta g) args = (m1, None) /\
      exn_of out = None /\ root_inv (st_of out) (ct ++ [(a_container args, d)]) (seen ++ d) ok /\
      m_container (g_meta (st_of out)) = m_container m1 /\
      (forall x y t, has_tile g x y t -> exists t', has_tile (st_of out) x y t' /\ grown_tile O m0 (g_disk g) args d x y t t')).
  Proof using L Hs Hgrow Hox Hoy.
    intros HI out. pose proof HI as [[B1 B2 B3 B4] Hst].
    destruct (decide (a_container args ∈ dkeys (m_container (g_meta g)))) as [Hdup|Hfresh].
    { left. subst out. unfold g_add_points. rewrite (proj2 (dmem_true _ _) Hdup). split; [done|]. split; [done|].
      exists (g_meta g). split; [by destruct g|done]. }
    destruct inp as [d|].
    2:{ left. subst out. unfold g_add_points. rewrite (proj2 (dmem_false _ _) Hfresh). split; [done|]. split; [done|].
        exists (g_meta g). split; [by destruct g|done]. }
    destruct (update_metadata (g_meta g) args) as [m1 [ex|]] eqn:Hu;
      destruct (update_metadata_spec _ _ _ _ Hu) as (F & Ue & Uw & Uh & _ & Un & _ & _ & _ & _ & _ & Uc & _).
    { left. subst out. unfold g_add_points. rewrite (proj2 (dmem_false _ _) Hfresh), Hu. split; [done|]. split; [|by exists m1].
      apply root_inv_meta; try done. by rewrite Uc. }
    assert (Hkeys : forall c, c ∈ dkeys (m_container m1) <-> c ∈ dkeys (m_container (g_meta g)) \/ c = a_container args).
    { intros c. rewrite Uc, dset_new by done. unfold dkeys. rewrite fmap_app, elem_of_app. cbn. by rewrite elem_of_list_singleton. }
    assert (HI1 : root_inv (g <| g_meta := m1 |>) ct seen ok).
    { apply root_inv_meta; try done. intros c Hc. apply Hkeys. by left. }
    destruct (decide (d = [])) as [->|Hd].
    { left. subst out. unfold g_add_points. rewrite (proj2 (dmem_false _ _) Hfresh), Hu.
      assert (E : exists e, update_base_grid (g <| g_meta := m1 |>) [] = (g <| g_meta := m1 |>, Some e)).
      { unfold update_base_grid. cbn [data_ext map zmin rbind].
        change (m_can_grow (g_meta (g <| g_meta := m1 |>))) with (m_can_grow m1). rewrite (mf_grow _ _ F), (mf_grow _ _ B1), Hgrow.
        destruct (g_is_empty _); by eexists. }
      destruct E as [e E]. rewrite E. split; [done|]. split; [done|]. by exists m1. }
    right. exists d, m1. split; [done|]. split; [done|]. split; [done|]. split; [done|].
    set (g1 := g <| g_meta := m1 |>) in *.
    assert (Hm1 : meta_frame m0 (g_meta g1)) by (by eapply meta_frame_trans).
    assert (Hct : a_container args ∉ ct.*1) by (intros Hx; by apply Hfresh, B2).
    (* one place for what follows the placement *)
    assert (Hfin : forall g3 lx ly nx ny a seen0, placed g3 ct lx ly nx ny a -> framed g3 lx ly nx ny ->
      meta_frame m0 (g_meta g3) -> m_container (g_meta g3) = m_container m1 -> g_disk g3 = g_disk g ->
      Forall (in_rect lx ly s nx ny) (map xy_of d) -> Forall (in_rect lx ly s nx ny) (map xy_of seen0) ->
      (forall p, p ∈ all_points ct -> p ∈ seen0) -> (ok = true -> mask_fits g3 (ny * nx)) ->
      exn_of (add_points_to_tiles O g3 d args) = None /\
      let g4 := st_of (add_points_to_tiles O g3 d args) <| g_meta := g_meta (st_of (add_points_to_tiles O g3 d args)) <| m_mean_depth := batch_mean_depth d |> |> in
      root_inv g4 (ct ++ [(a_container args, d)]) (seen0 ++ d) ok /\ m_container (g_meta g4) = m_container m1 /\
      (forall x y t, has_tile g3 x y t -> exists t', has_tile g4 x y t' /\ grown_tile O m0 (g_disk g) args d x y t t')).
    { intros g3 lx ly nx ny a seen0 P Fr M3 C3 D3 Rd Rs Sub Mk.
      destruct (add_points_placed O m0 rep L Hs g3 ct lx ly nx ny a d args M3 P Hct Rd) as (fl & E1 & E2 & E3 & E4 & E5).
      split; [done|]. cbv zeta. rewrite E2. pose proof (placed_after_add m0 rep g3 ct lx ly nx ny a d (a_container args) fl P Rd E5) as P'.
      set (g4 := after_add g3 ny nx fl <| g_meta := _ |>).
      assert (P4 : placed g4 (ct ++ [(a_container args, d)]) lx ly nx ny (Nd ny nx fl)) by (destruct P'; by split).
      split; [split; [split|right; split]|split].
      - cbn. destruct M3; by split.
      - intros c. change (m_container (g_meta g4)) with (m_container (g_meta g3)). rewrite C3, Hkeys.
        rewrite fmap_app, elem_of_app. cbn. rewrite elem_of_list_singleton. intros [?|?]; [left; by apply B2|by right].
      - rewrite fmap_app. apply NoDup_app. split; [done|]. split; [|apply NoDup_singleton].
        intros c Hc' ->%elem_of_list_singleton. done.
      - apply Forall_app. split; [done|]. by apply Forall_singleton.
      - by destruct ct.
      - exists lx, ly, nx, ny, (Nd ny nx fl). split; [done|]. split; [done|]. split; [done|].
        split; [rewrite map_app; by apply Forall_app|]. split; [|done].
        intros p. rewrite all_points_snoc, !elem_of_app. intros [?|?]; [left; by apply Sub|by right].
      - done.
      - rewrite <- D3. by eapply grown_after_add. }
    assert (Hout : forall g2 g3, update_base_grid g1 d = (g2, None) -> place_tiles g2 = (g3, None) ->
      exn_of (add_points_to_tiles O g3 d args) = None ->
      exn_of out = None /\ st_of out = st_of (add_points_to_tiles O g3 d args) <| g_meta := g_meta (st_of (add_points_to_tiles O g3 d args)) <| m_mean_depth := batch_mean_depth d |> |>).
    { intros g2 g3 K1 K2 K3. subst out. rewrite (add_points_exn g d args g2 g3 m1 Hfresh Hu K1 K2 K3). done. }
    destruct HI1 as [HB1 [(E1 & E2 & E3 & E4 & E5)|(Hne & lx & ly & nx & ny & a & P & Fr & N & S1 & S2 & S3)]].
    - destruct (grow_empty g1 d Hm1 E1 Hd) as (lx & ly & nx & ny & Hnx & Hny & K1 & K2 & Fr & P & R). cbv zeta in *.
      destruct (Hfin _ lx ly nx ny _ seen ltac:(by rewrite E2)) as (X1 & X2 & X3 & X4); try done.
      + destruct Hm1; by split.
      + subst seen. constructor.
      + subst ct. intros p Hp. by apply not_elem_of_nil in Hp.
      + intros Hok. left. by apply E5.
      + destruct (Hout _ _ K1 K2 X1) as [Y1 Y2]. rewrite Y2. split; [done|]. split; [done|]. split; [done|].
        intros x y t (k & _ & Ht). unfold tile_at in Ht. change (g_tiles g1) with (g_tiles g) in E1. by rewrite E1 in Ht.
    - assert (Hnz : all_points ct <> []) by (rewrite all_points_nil_iff; done).
      destruct (grow_placed g1 ct lx ly nx ny a d Hm1 P Fr Hnz Hd) as (lx' & ly' & nx' & ny' & r0 & c0 & k & a' & Hnx' & Hny' & K1 & K2 & Fr' & P' & R & Incl & Kl & Ex & Ey & Cx & Ry & Hmv & _).
      destruct (Hfin _ lx' ly' nx' ny' _ seen P') as (X1 & X2 & X3 & X4); try done.
      + destruct Hm1; by split.
      + apply Forall_fmap. apply (Forall_fmap xy_of) in S1. eapply Forall_impl; [exact S1|]. intros q. cbn. apply Incl.
      + intros _. right. exact Kl.
      + destruct (Hout _ _ K1 K2 X1) as [Y1 Y2]. rewrite Y2. split; [done|]. split; [done|]. split; [done|].
        intros x y t Ht. apply X4.
        assert (P1 : placed g ct lx ly nx ny a) by (destruct P; by split).
        apply (has_tile_placed m0 rep _ _ _ _ _ _ _ _ _ _ P1) in Ht as (r & c & Hr & Hc & -> & -> & Ht).
        apply (has_tile_placed m0 rep _ _ _ _ _ _ _ _ _ _ P'). exists (r0 + r)%nat, (c0 + c)%nat.
        split; [lia|]. split; [lia|]. split; [nia|]. split; [nia|]. by rewrite Hmv.
  Qed.

  Lemma root_remove g ct seen ok c :
    root_inv g ct seen ok ->
    let out := g_remove_points O g c in
    let e := bool_decide (drop_c ct c = []) in
    (ok = true -> exn_of out = None) /\
    (exn_of out = None ->
     root_inv (st_of out) (drop_c ct c) (if e then [] else seen) (if e then ok && bool_decide (ct = []) else ok) /\
     dkeys (m_container (g_meta (st_of out))) = filter (fun x => x <> c) (dkeys (m_container (g_meta g))) /\
     (c ∈ dkeys (m_container (g_meta g)) -> forall x y t, has_tile g x y t -> forall t', rem_slot O (g_disk g) c (Some t) = Some t' -> has_tile (st_of out) x y t')).
  Proof using L Hs.
    intros HI out e. pose proof HI as [[B1 B2 B3 B4] Hst].
    destruct (decide (c ∈ dkeys (m_container (g_meta g)))) as [Hin|Hin].
    - destruct Hst as [(E1 & E2 & E3 & E4 & E5)|(Hne & lx & ly & nx & ny & a & P & Fr & N & S1 & S2 & S3)].
      + subst out e. unfold g_remove_points. rewrite (proj2 (dmem_true _ _) Hin). cbn [negb]. fold (dropped g c).
        assert (Hem : g_is_empty (dropped g c) = true) by (unfold g_is_empty; cbn; by rewrite E1). rewrite Hem.
        cbn [exn_of st_of]. split; [done|]. intros _. rewrite Hem. subst ct. cbn [drop_c filter list_filter].
        rewrite !bool_decide_eq_true_2 by done. rewrite andb_true_r. split; [|split].
        * split.
          -- split; [destruct B1; by split| |apply NoDup_nil_2|constructor]. intros c' Hc. by apply not_elem_of_nil in Hc.
          -- left. split; [done|]. done.
        * apply dkeys_ddel.
        * intros _ x y t (k & _ & Ht). unfold tile_at in Ht. by rewrite E1 in Ht.
      + destruct (remove_placed O m0 rep L Hs g ct lx ly nx ny a c P N B4 Hne Hin) as [R1 R2]. fold out in R1, R2.
        split; [intros Hok; apply R1; by apply S3|]. intros He. destruct (R2 He) as (mk & fl & Q1 & Q2 & Q3 & Q4 & Q5 & Q6).
        rewrite Q1. cbv zeta. fold e.
        assert (HB : root_base (after_remove (dropped g c) mk ny nx fl) (drop_c ct c)).
        { split.
          - destruct B1; by split.
          - intros c'. change (m_container (g_meta (after_remove _ _ _ _ _))) with (ddel (m_container (g_meta g)) c).
            rewrite drop_c_keys, dkeys_ddel. rewrite !elem_of_list_filter. intros [? ?]. split; [done|]. by apply B2.
          - by apply drop_c_nodup.
          - by apply drop_c_full. }
        assert (Hkk : dkeys (m_container (g_meta (if e then after_remove (dropped g c) mk ny nx fl <| g_tiles := None |> else after_remove (dropped g c) mk ny nx fl))) =
          filter (fun x => x <> c) (dkeys (m_container (g_meta g)))).
        { rewrite <- dkeys_ddel. by destruct e. }
        subst e. case_bool_decide as Hz.
        * split; [|split; [exact Hkk|]].
          { split; [destruct HB; by split|]. left. split; [done|]. split; [done|]. split; [done|]. split.
            -- right. cbn. f_equal. apply (no_live m0 rep Hs _ _ _ _ _ _ _ Q6 Hz).
            -- rewrite bool_decide_eq_false_2 by done. rewrite andb_false_r. done. }
          intros _ x y t Ht t' Hrem. exfalso.
          apply (has_tile_placed m0 rep _ _ _ _ _ _ _ _ _ _ P) in Ht as (r & k & Hr & Hc & -> & -> & Ht).
          pose proof (Q4 (r * nx + k)%nat) as Hk. rewrite Ht in Hk. change (fl !! (r * nx + k)%nat = Some (rem_slot O (g_disk g) c (Some t))) in Hk. rewrite Hrem in Hk.
          pose proof (slots_is_empty m0 rep Hs _ _ _ _ _ _ _ (pl_tiles _ _ _ _ _ _ _ _ _ Q6) (pl_slots _ _ _ _ _ _ _ _ _ Q6) (pl_rect _ _ _ _ _ _ _ _ _ Q6) (rb_full _ _ HB)) as Hem.
          rewrite bool_decide_eq_true_2 in Hem by done.
          rewrite (not_empty_live (after_remove (dropped g c) mk ny nx fl) (Nd ny nx fl) _ t' eq_refl Hk) in Hem. done.
        * split; [|split; [exact Hkk|]].
          { split; [done|]. right. split; [done|]. exists lx, ly, nx, ny, (Nd ny nx fl). split; [done|]. split; [done|]. split; [done|].
            split; [done|]. split.
            -- intros p Hp. apply S2. unfold all_points in *. rewrite elem_of_list_In in *. apply in_concat in Hp as (l & Hl & Hp).
               apply in_concat. exists l. split; [|done]. rewrite <- elem_of_list_In in Hl |- *.
               apply elem_of_list_fmap in Hl as (y & -> & Hy). unfold drop_c in Hy. apply elem_of_list_filter in Hy as [_ Hy].
               by apply elem_of_list_fmap_1.
            -- intros Hok. specialize (S3 Hok). by eapply (mask_fits_like g). }
          intros _ x y t Ht t' Hrem.
          apply (has_tile_placed m0 rep _ _ _ _ _ _ _ _ _ _ P) in Ht as (r & k & Hr & Hc & -> & -> & Ht).
          apply (has_tile_placed m0 rep _ _ _ _ _ _ _ _ _ _ Q6). exists r, k. split; [done|]. split; [done|]. split; [done|]. split; [done|].
          change (fl !! (r * nx + k)%nat = Some (Some t')). rewrite Q4, Ht. rewrite <- Hrem. done.
    - subst out. rewrite remove_unknown by done. split; [done|]. intros _. cbn [st_of].
      assert (Hd : drop_c ct c = ct) by (apply drop_c_notin; intros Hx; by apply Hin, B2).
      subst e. rewrite Hd. split; [|split].
      + case_bool_decide as Hz; [|done]. destruct Hst as [(E1 & E2 & E3 & E4 & E5)|(Hne & _)]; [|done]. 
        rewrite E3 in HI. by rewrite andb_true_r.
      + symmetry. assert (Hall : Forall (fun x => x <> c) (dkeys (m_container (g_meta g)))).
        { apply Forall_forall. by intros x Hx ->. }
        revert Hall. generalize (dkeys (m_container (g_meta g))) as l. clear.
        induction 1 as [|x l Hx Hl IH]; [done|]. rewrite filter_cons, decide_True by done. by rewrite IH.
      + done.
  Qed.
End root.
