(** What adding and removing points does to a grid, over any kind of tiles. *)
From Verif Require Import Py Nd Numpy Point Bin Algorithms Tile Time Meta Disk Grid Spec GridExec.
From Verif Require Import PyFacts NdFacts NumpyFacts BinFacts TileFacts TileRunFacts GridBaseFacts GridPlaceFacts.
Open Scope Z_scope.

Section inv.
  Context {T : Type} (O : tile_ops T) (m0 : gmeta) (rep : T -> Z -> Z -> content -> Prop).
  Notation s := (m_tile_size m0).
  Context (L : tile_laws O m0 rep) (Hs : 0 < s).

  (** The tile array [a] of the grid covers nx * ny tiles from (lx, ly), holding [ct]. *)
  Record placed (g : grid T) (ct : content) (lx ly : Z) (nx ny : nat) (a : nd (option T)) : Prop := {
    pl_nx : (0 < nx)%nat; pl_ny : (0 < ny)%nat;
    pl_geom : g_geom g = Some (std_geom lx ly s nx ny);
    pl_tiles : g_tiles g = Some a;
    pl_rows : nrows a = ny; pl_cols : ncols a = nx;
    pl_slots : slots m0 rep lx ly nx ny (nflat a) ct;
    pl_rect : Forall (in_rect lx ly s nx ny) (map xy_of (all_points ct)) }.

  Definition after_add (g : grid T) (ny nx : nat) (fl : list (option T)) : grid T :=
    g <| g_tiles := Some (Nd ny nx fl) |> <| g_meta := g_meta g <| m_ntiles := Some (count_live fl) |> |>.

  Lemma add_points_placed g ct lx ly nx ny a d args :
    meta_frame m0 (g_meta g) -> placed g ct lx ly nx ny a -> a_container args ∉ ct.*1 ->
    Forall (in_rect lx ly s nx ny) (map xy_of d) ->
    exists fl, exn_of (add_points_to_tiles O g d args) = None /\
      st_of (add_points_to_tiles O g d args) = after_add g ny nx fl /\ length fl = (ny * nx)%nat /\
      (forall r c, (r < ny)%nat -> (c < nx)%nat ->
         fl !! (r * nx + c)%nat = add_slot O m0 (g_meta g) (g_disk g) lx ly nx args d (nflat a) r c) /\
      slots m0 rep lx ly nx ny fl (ct ++ [(a_container args, d)]).
  Proof using L Hs.
    intros Hm [Hnx Hny Hge Ha Hr Hc Hsl Hrect] Hfresh Hd. unfold add_points_to_tiles. rewrite Hge, Ha.
    cbn [std_geom gex gey]. rewrite bin2d_in by done.
    destruct (add_loop O m0 rep L Hs (g_meta g) (g_disk g) lx ly nx ny args d (nflat a) ct Hm Hfresh Hsl Hd) as (H1 & H2 & H3 & H4).
    unfold std_geom in *. rewrite H1. cbn [exn_of st_of]. eexists. split; [done|]. rewrite Hr, Hc.
    split; [unfold after_add; reflexivity|]. done.
  Qed.

  Lemma all_points_snoc (ct : content) c d : all_points (ct ++ [(c, d)]) = all_points ct ++ d.
  Proof. rewrite all_points_app. f_equal. unfold all_points. simpl. apply app_nil_r. Qed.

  Lemma placed_after_add g ct lx ly nx ny a d c fl :
    placed g ct lx ly nx ny a -> Forall (in_rect lx ly s nx ny) (map xy_of d) ->
    slots m0 rep lx ly nx ny fl (ct ++ [(c, d)]) ->
    placed (after_add g ny nx fl) (ct ++ [(c, d)]) lx ly nx ny (Nd ny nx fl).
  Proof.
    intros [] Hd Hsl. split; try done. rewrite all_points_snoc, map_app. by apply Forall_app.
  Qed.

  Lemma std_origin lx ly nx ny k (g : grid T) :
    g_geom g = Some (std_geom lx ly s nx ny) -> (k < ny * nx)%nat ->
    origin_at g k = Some (lx + Z.of_nat (k mod nx) * s, ly + Z.of_nat (k / nx) * s).
  Proof.
    intros Hg Hk. destruct (flat_div_lt _ _ _ Hk) as [H1 H2]. unfold origin_at. rewrite Hg.
    pose proof (std_geom_x lx ly s nx ny _ _ H1 H2) as E1. pose proof (std_geom_y lx ly s nx ny _ _ H1 H2) as E2.
    rewrite <- flat_split in E1, E2 by lia. by rewrite E1, E2.
  Qed.
  Lemma std_origin_bound lx ly nx ny k xy (g : grid T) :
    g_geom g = Some (std_geom lx ly s nx ny) -> origin_at g k = Some xy -> (k < ny * nx)%nat.
  Proof.
    intros Hg. unfold origin_at. rewrite Hg. destruct (nflat (gx _) !! k) eqn:E; [|done]. intros _.
    apply lookup_lt_Some in E. by rewrite std_geom_len in E.
  Qed.
  Lemma has_tile_placed g ct lx ly nx ny a x y t :
    placed g ct lx ly nx ny a ->
    has_tile g x y t <-> exists r c, (r < ny)%nat /\ (c < nx)%nat /\ x = lx + Z.of_nat c * s /\ y = ly + Z.of_nat r * s /\
      nflat a !! (r * nx + c)%nat = Some (Some t).
  Proof.
    intros [Hnx Hny Hg Ha Hr Hc Hsl _]. split.
    - intros (k & Ho & Ht). pose proof (std_origin_bound _ _ _ _ _ _ _ Hg Ho) as Hk.
      rewrite (std_origin _ _ _ _ _ _ Hg Hk) in Ho. injection Ho as <- <-. destruct (flat_div_lt _ _ _ Hk) as [H1 H2].
      exists (k / nx)%nat, (k mod nx)%nat. split; [done|]. split; [done|]. split; [done|]. split; [done|].
      rewrite <- flat_split by lia. unfold tile_at in Ht. rewrite Ha in Ht. by destruct (nflat a !! k) as [[]|]; simplify_eq/=.
    - intros (r & c & H1 & H2 & -> & -> & Ht). exists (r * nx + c)%nat. split.
      + rewrite (std_origin _ _ _ _ _ _ Hg (flat_lt _ _ _ _ H1 H2)). by rewrite flat_mod, flat_div.
      + unfold tile_at. rewrite Ha, Ht. done.
  Qed.

  (** What add_points makes of a tile: unchanged, or with the new points of its square. *)
  Definition grown_tile (disk : bool) (args : add_args) (d : list point) (x y : Z) (t t' : T) : Prop :=
    match filter (fun p => in_square x y s (px p) (py p)) d with
    | [] => t' = t
    | pts => Some t' = reload_at O disk SavePoints (Some (st_of (op_add O t pts (nested_args args))))
    end.

  Lemma grown_after_add g ct lx ly nx ny a d args fl g4 :
    placed g ct lx ly nx ny a ->
    (forall r c, (r < ny)%nat -> (c < nx)%nat ->
       fl !! (r * nx + c)%nat = add_slot O m0 (g_meta g) (g_disk g) lx ly nx args d (nflat a) r c) ->
    placed g4 (ct ++ [(a_container args, d)]) lx ly nx ny (Nd ny nx fl) ->
    forall x y t, has_tile g x y t -> exists t', has_tile g4 x y t' /\ grown_tile (g_disk g) args d x y t t'.
  Proof.
    intros P E4 P4 x y t Ht. apply (has_tile_placed _ _ _ _ _ _ _ _ _ _ P) in Ht as (r & c & Hr & Hc & -> & -> & Ht).
    specialize (E4 r c Hr Hc). unfold add_slot in E4. unfold grown_tile. rewrite Ht in E4.
    set (pts := filter _ d) in *.
    assert (exists t', fl !! (r * nx + c)%nat = Some (Some t') /\
      match pts with [] => t' = t | _ => Some t' = reload_at O (g_disk g) SavePoints (Some (st_of (op_add O t pts (nested_args args)))) end) as (t' & Hl & Hg).
    { destruct pts as [|p l]; [by exists t|]. cbn in E4. unfold new_slot in E4. cbn [default] in E4.
      unfold reload_at in E4 |- *. destruct (g_disk g && op_sr O); cbn in E4; (eexists; split; [exact E4|done]). }
    exists t'. split; [|clearbody pts; by destruct pts]. apply (has_tile_placed _ _ _ _ _ _ _ _ _ _ P4). exists r, c. done.
  Qed.

  (** An empty tile array. *)
  Lemma slots_empty lx ly nx ny : slots m0 rep lx ly nx ny (nflat (nd_full ny nx None)) [].
  Proof.
    split; [by rewrite nd_full_wf|]. intros r c Hr Hc. exists None. split; [|done].
    simpl. apply lookup_replicate_2. by apply flat_lt.
  Qed.

  (** No entry of the mask is set. *)
  Definition mask_clear (m : option (nd bool)) : Prop := match m with Some b => existsb id (nflat b) = false | None => True end.
  (** The mask after tiles were removed. *)
  Definition mask_like (m m' : option (nd bool)) : Prop :=
    match m, m' with
    | Some x, Some y => length (nflat y) = length (nflat x) /\ (existsb id (nflat x) = false -> y = x)
    | None, None => True
    | _, _ => False
    end.
  Lemma mask_like_refl m : mask_like m m.
  Proof. by destruct m. Qed.
  Lemma mask_like_trans m1 m2 m3 : mask_like m1 m2 -> mask_like m2 m3 -> mask_like m1 m3.
  Proof.
    clear. unfold mask_like. destruct m1 as [x|], m2 as [y|], m3 as [z|]; try done. intros [H1 H2] [H3 H4]. split; [congruence|].
    intros H. specialize (H2 H). subst y. auto.
  Qed.
  Lemma mask_like_clear m m' : mask_like m m' -> mask_clear m -> m' = m.
  Proof. clear. destruct m as [x|], m' as [y|]; try done. cbn. intros [_ H] Hx. by rewrite (H Hx). Qed.

  (** ** Grids of fixed extents (the sub-grids of a VRGridTile) *)
  Section fixed.
    Context (Hgrow : m_can_grow m0 = false) (X Y W : Z) (HW : 0 < W) (HX : m_ext m0 = Some (Ext X Y (X + W) (Y + W))).
    Notation n := (Z.to_nat (ceil_div W s)).

    Lemma fixed_n : (0 < n)%nat.
    Proof using Hs HW. pose proof (ceil_div_pos W s Hs HW). lia. Qed.
    Lemma fixed_rect p : in_square X Y W (px p) (py p) -> in_rect X Y s n n (xy_of p).
    Proof using Hs HW.
      pose proof (ceil_div_spec W s Hs). pose proof (ceil_div_pos W s Hs HW).
      unfold in_square, in_rect, xy_of. simpl. rewrite Z2Nat.id by lia. lia.
    Qed.

    Record child_base (g : grid T) (ct : content) : Prop := {
      cb_meta : meta_frame m0 (g_meta g);
      cb_ext : m_ext (g_meta g) = Some (Ext X Y (X + W) (Y + W));
      cb_mask : mask_clear (g_mask g);
      cb_vref : m_vref (g_meta g) = None;
      cb_keys : forall c, c ∈ ct.*1 <-> c ∈ dkeys (m_container (g_meta g));
      cb_nodup : NoDup ct.*1;
      cb_full : Forall (fun e : string * list point => e.2 <> []) ct;
      cb_in : Forall (fun p => in_square X Y W (px p) (py p)) (all_points ct) }.
    Definition child_inv (g : grid T) (ct : content) : Prop :=
      child_base g ct /\
      ((g_tiles g = None /\ ct = [] /\ (m_ntiles (g_meta g) = None \/ m_ntiles (g_meta g) = Some 0)) \/
       (ct <> [] /\ exists a, placed g ct X Y n n a /\ m_ntiles (g_meta g) = Some (count_live (nflat a)) /\
          (m_width (g_meta g) = Some W /\ m_height (g_meta g) = Some W))).

    Lemma build_fixed (g : grid T) :
      meta_frame m0 (g_meta g) -> m_ext (g_meta g) = Some (Ext X Y (X + W) (Y + W)) ->
      build_grid g (Ext X Y (X + W) (Y + W)) =
      (g <| g_geom := Some (std_geom X Y s n n) |>
         <| g_meta := g_meta g <| m_ext := Some (Ext X Y (X + W) (Y + W)) |> <| m_width := Some W |>
                               <| m_height := Some W |> <| m_max_tiles := Some (n * n)%nat |> |>, None).
    Proof using Hs HW Hgrow.
      intros Hm He. unfold build_grid, adjust_extents. rewrite (mf_grow _ _ Hm), Hgrow. cbn [x0 x1 y0 y1].
      rewrite (mf_size _ _ Hm). rewrite andb_false_r. rewrite !arange_uniform.
      replace (X + W - X) with W by lia. replace (Y + W - Y) with W by lia.
      rewrite !with_last_edge_uniform by apply fixed_n. rewrite !uniform_length. by destruct g.
    Qed.

    Lemma child_new disk : m_vref m0 = None -> m_container m0 = [] -> m_ntiles m0 = None ->
      child_inv (new_grid_obj m0 disk) [].
    Proof using HX.
      intros Hv Hc Hn. split; [|left; split; [done|]; split; [done|by left]].
      split; cbn [new_grid_obj g_meta g_mask]; try done.
      - intros c. rewrite Hc. done.
      - constructor.
      - constructor.
    Qed.

    (** Placing points in a tile array that is ready for them. *)
    Lemma child_place g ct d a md fl :
      meta_frame m0 (g_meta g) -> m_ext (g_meta g) = Some (Ext X Y (X + W) (Y + W)) -> mask_clear (g_mask g) ->
      m_vref (g_meta g) = None -> m_width (g_meta g) = Some W /\ m_height (g_meta g) = Some W ->
      (forall c, c ∈ dkeys (m_container (g_meta g)) <-> c ∈ ct.*1 \/ c = a_container a) ->
      NoDup ct.*1 -> Forall (fun e : string * list point => e.2 <> []) ct ->
      Forall (fun p => in_square X Y W (px p) (py p)) (all_points ct) ->
      placed g ct X Y n n fl ->
      d <> [] -> Forall (fun p => in_square X Y W (px p) (py p)) d -> a_container a ∉ ct.*1 ->
      let r := add_points_to_tiles O g d a in
      exn_of r = None /\
      let g4 := st_of r <| g_meta := g_meta (st_of r) <| m_mean_depth := md |> |> in
      child_inv g4 (ct ++ [(a_container a, d)]) /\
      (forall x y t, has_tile g x y t -> exists t', has_tile g4 x y t' /\ grown_tile (g_disk g) a d x y t t').
    Proof using L Hs HW.
      intros Hm He Hk Hv Hw Hc Hnd Hf Hi Hpl Hd Hin Hfresh r.
      assert (Hrd : Forall (in_rect X Y s n n) (map xy_of d)).
      { apply Forall_fmap. eapply Forall_impl; [exact Hin|]. intros p. apply fixed_rect; done. }
      destruct (add_points_placed g ct X Y n n fl d a Hm Hpl Hfresh Hrd) as (fl' & E1 & E2 & E3 & E4 & E5).
      unfold r. rewrite E1, E2. split; [done|].
      pose proof (placed_after_add g ct X Y n n fl d (a_container a) fl' Hpl Hrd E5) as P4.
      split; [|eapply grown_after_add; [exact Hpl|exact E4|destruct P4; by split]]. split.
      - split; cbn; try done.
        + destruct Hm; by split.
        + intros c. rewrite Hc, fmap_app, elem_of_app. cbn. by rewrite elem_of_list_singleton.
        + rewrite fmap_app. apply NoDup_app. split; [done|]. split; [|apply NoDup_singleton].
          intros c Hc' ->%elem_of_list_singleton. done.
        + apply Forall_app. split; [done|]. by apply Forall_singleton.
        + rewrite all_points_snoc. by apply Forall_app.
      - right. split; [by destruct ct|]. exists (Nd n n fl'). split; [|done].
        destruct P4. by split.
    Qed.

    Lemma child_add g ct d a :
      child_inv g ct -> d <> [] -> Forall (fun p => in_square X Y W (px p) (py p)) d ->
      a_container a ∉ ct.*1 -> nested a ->
      exn_of (g_add_points O g (GoodData d) a) = None /\
      child_inv (st_of (g_add_points O g (GoodData d) a)) (ct ++ [(a_container a, d)]) /\
      (forall x y t, has_tile g x y t ->
         exists t', has_tile (st_of (g_add_points O g (GoodData d) a)) x y t' /\ grown_tile (g_disk g) a d x y t t').
    Proof using L Hs Hgrow HW HX.
      intros [B Hst] Hd Hin Hfresh Hn. destruct B as [Bm Be Bk Bv Bc Bnd Bf Bi].
      unfold g_add_points. rewrite (proj2 (dmem_false _ _)); [|by rewrite <- Bc].
      destruct (nested_update (g_meta g) a Hn Bv) as (m1 & Hu & Hv1 & Hc1). rewrite Hu.
      rewrite dset_new in Hc1 by (by rewrite <- Bc).
      destruct (update_metadata_spec _ _ _ _ Hu) as (Hf & He & Hw & Hht & _ & Hnt & _).
      set (g1 := g <| g_meta := m1 |>).
      assert (Hm1 : meta_frame m0 (g_meta g1)) by (by eapply meta_frame_trans).
      assert (Hc2 : forall c, c ∈ dkeys (m_container m1) <-> c ∈ ct.*1 \/ c = a_container a).
      { intros c. rewrite Hc1. unfold dkeys. rewrite fmap_app, elem_of_app. cbn. rewrite elem_of_list_singleton. 
        by rewrite Bc. }
      assert (Hkey : forall g', meta_frame m0 (g_meta g') -> m_ext (g_meta g') = Some (Ext X Y (X + W) (Y + W)) -> mask_clear (g_mask g') ->
        m_vref (g_meta g') = None -> m_width (g_meta g') = Some W /\ m_height (g_meta g') = Some W -> m_container (g_meta g') = m_container m1 ->
        forall fl, placed g' ct X Y n n fl -> g_disk g' = g_disk g -> (forall x y t, has_tile g x y t -> has_tile g' x y t) ->
        let o := match exn_of (add_points_to_tiles O g' d a) with
                 | Some _ => add_points_to_tiles O g' d a
                 | None => Out (st_of (add_points_to_tiles O g' d a) <| g_meta := g_meta (st_of (add_points_to_tiles O g' d a)) <| m_mean_depth := batch_mean_depth d |> |>)
                             (ev_of (add_points_to_tiles O g' d a)) None
                 end in exn_of o = None /\ child_inv (st_of o) (ct ++ [(a_container a, d)]) /\
                   (forall x y t, has_tile g x y t -> exists t', has_tile (st_of o) x y t' /\ grown_tile (g_disk g) a d x y t t')).
      { intros g' K1 K2 K3 K4 K5 K6 fl Hpl Hdk Htl.
        destruct (child_place g' ct d a (batch_mean_depth d) fl) as (R1 & R2 & R3); try done; [by rewrite K6|].
        rewrite R1. rewrite Hdk in R3. split; [done|]. split; [done|]. intros x y t Ht. by apply R3, Htl. }
      unfold update_base_grid, place_tiles.
      destruct Hst as [(Ht & -> & _)|(Hne & ar & Hpl & Hnn & Hww)].
      - assert (He1 : g_is_empty g1 = true) by (unfold g_is_empty; cbn; by rewrite Ht). rewrite He1.
        rewrite (mf_grow _ _ Hm1), Hgrow. change (m_ext (g_meta g1)) with (m_ext m1). rewrite He, Be.
        rewrite build_fixed; [|done|cbn; by rewrite He].
        assert (He2 : forall x y, g_is_empty (g1 <| g_geom := x |> <| g_meta := y |>) = true)
          by (intros; unfold g_is_empty; cbn; by rewrite Ht). rewrite He2.
        match goal with |- context [g_geom ?g'] => change (g_geom g') with (Some (std_geom X Y s n n)) end.
        cbn [std_geom gx meshgrid_x nrows ncols]. rewrite !uniform_length.
        apply Hkey with (fl := nd_full n n None); cbn; try done.
        + destruct Hm1; by split.
        + split; try apply fixed_n; try apply slots_empty; try done. constructor.
        + intros x y t (k & _ & Hk). unfold tile_at in Hk. by rewrite Ht in Hk.
      - assert (Hem : g_is_empty g1 = false).
        { destruct Hpl. edestruct (slots_live m0 rep Hs) as (k & t & Hk); [done|done| |].
          - intros Hnil. destruct ct as [|[c p] ct]; [done|]. rewrite Forall_forall in Bf.
            apply (Bf (c, p)); [left|]. unfold all_points in Hnil. cbn in Hnil. by apply app_eq_nil in Hnil as [? _].
          - by eapply (not_empty_live g1 ar). }
        rewrite Hem. rewrite (mf_grow _ _ Hm1), Hgrow. change (g_geom g1) with (g_geom g). rewrite (pl_geom _ _ _ _ _ _ _ Hpl). rewrite Hem.
        rewrite (mf_grow _ _ Hm1), Hgrow. apply Hkey with (fl := ar); cbn; try done.
        + by rewrite He.
        + by rewrite Hw, Hht.
        + destruct Hpl. by split.
    Qed.
  End fixed.

  (** ** Removing points *)
  (** What becomes of one location. *)
  Definition rem_slot (disk : bool) (c : string) (o : option T) : option T :=
    match o with
    | None => None
    | Some t => let t' := st_of (op_remove O t c) in
                if op_empty O t' then None else reload_at O disk SavePoints (Some t')
    end.
  (** An entry can be cleared in the mask for every tile, or none has to be. *)
  Definition mask_fits (g : grid T) (size : nat) : Prop :=
    mask_clear (g_mask g) \/ match g_mask g with Some b => length (nflat b) = size | None => True end.
  Lemma mask_fits_like (g g' : grid T) size : mask_like (g_mask g) (g_mask g') -> mask_fits g size -> mask_fits g' size.
  Proof.
    clear. unfold mask_like, mask_fits. unfold mask_clear. destruct (g_mask g) as [x|], (g_mask g') as [y|]; try done; intros [H1 H2] [H|H].
    - rewrite (H2 H). by left.
    - right. congruence.
  Qed.

  Lemma count_live_nat (fl : list (option T)) k (o o' : option T) :
    fl !! k = Some o ->
    count_live (<[k := o']> fl) = count_live fl + (if o' then 1 else 0) - (if o then 1 else 0).
  Proof.
    clear. unfold count_live. revert k. induction fl as [|x fl IH]; intros k Hk; [done|].
    destruct k as [|k]; simpl in *.
    - injection Hk as ->. destruct o, o'; simpl; lia.
    - specialize (IH k Hk). unfold omap in *. destruct x, o, o'; simpl in *; lia.
  Qed.

  Lemma remove_step (g : grid T) lx ly nx ny fl c k o :
    g_geom g = Some (std_geom lx ly s nx ny) -> g_tiles g = Some (Nd ny nx fl) -> length fl = (ny * nx)%nat ->
    m_ntiles (g_meta g) = Some (count_live fl) -> fl !! k = Some o ->
    (forall t, o = Some t -> exn_of (op_remove O t c) = None) ->
    let out := remove_from_tile O c g k in
    (mask_fits g (ny * nx) -> exn_of out = None) /\
    (exn_of out = None -> exists mk,
       st_of out = g <| g_mask := mk |> <| g_tiles := Some (Nd ny nx (<[k := rem_slot (g_disk g) c o]> fl)) |>
                     <| g_meta := g_meta g <| m_ntiles := Some (count_live (<[k := rem_slot (g_disk g) c o]> fl)) |> |> /\
       mask_like (g_mask g) mk).
  Proof.
    intros Hge Ht Hl Hn Hk Hex.
    assert (Hkl : (k < ny * nx)%nat) by (rewrite <- Hl; by eapply lookup_lt_Some).
    destruct (flat_div_lt _ _ _ Hkl) as [Hr Hc].
    assert (Hor : forall g' : grid T, g_geom g' = g_geom g -> exists xy, origin_at g' k = Some xy).
    { intros g' Hg'. unfold origin_at. rewrite Hg', Hge. rewrite (flat_split nx k) by lia.
      rewrite std_geom_x, std_geom_y by done. eauto. }
    assert (Hsave : forall g' fl' o', g_geom g' = g_geom g -> g_disk g' = g_disk g -> g_tiles g' = Some (Nd ny nx fl') -> fl' !! k = Some o' ->
      exn_of (save_reload O g' k SavePoints) = None /\
      st_of (save_reload O g' k SavePoints) = g' <| g_tiles := Some (Nd ny nx (<[k := reload_at O (g_disk g) SavePoints o']> fl')) |>).
    { intros g' fl' o' H1 H2 H3 H4. destruct (Hor g' H1) as [[x y] Hxy]. unfold save_reload, reload_at. rewrite H2.
      destruct (g_disk g && op_sr O).
      - rewrite Hxy. split; [done|]. cbn. unfold set_tile, tile_at. rewrite H3. cbn. by rewrite H4.
      - split; [done|]. cbn. rewrite list_insert_id by done. destruct g'; cbn in *. by subst. }
    assert (Hta : tile_at g k = o) by (unfold tile_at; rewrite Ht; cbn [nflat]; by rewrite Hk).
    unfold remove_from_tile. cbv zeta. rewrite !Hta. destruct o as [t|].
    - specialize (Hex t eq_refl). cbn [rem_slot]. set (t' := st_of (op_remove O t c)) in *. rewrite !Hex.
      assert (Hg1 : set_tile g k (Some t') = g <| g_tiles := Some (Nd ny nx (<[k := Some t']> fl)) |>)
        by (unfold set_tile; by rewrite Ht). rewrite !Hg1. set (g1 := g <| g_tiles := _ |>).
      destruct (op_empty O t').
      + unfold remove_tile. change (g_mask g1) with (g_mask g). change (m_ntiles (g_meta g1)) with (m_ntiles (g_meta g)). rewrite Hn.
        assert (Hfin : forall b, exists e, let o1 := Out (set_tile (g1 <| g_mask := b |> <| g_meta := g_meta g1 <| m_ntiles := Some (count_live fl - 1) |> |>) k None) e None in
          exn_of (save_reload O (st_of o1) k SavePoints) = None /\
          st_of (save_reload O (st_of o1) k SavePoints) = g <| g_mask := b |> <| g_tiles := Some (Nd ny nx (<[k := None]> fl)) |>
                     <| g_meta := g_meta g <| m_ntiles := Some (count_live (<[k := None]> fl)) |> |>).
        { intros b. exists []. cbn [st_of]. unfold set_tile. cbn [g_tiles g1].
          match goal with |- context [save_reload O ?x k SavePoints] => destruct (Hsave x (<[k:=None]> fl) None) as [E1 E2] end.
          - done.
          - done.
          - unfold g1. cbn. by rewrite list_insert_insert.
          - rewrite list_lookup_insert; [done|lia].
          - split; [done|]. rewrite E2. cbn. 
            assert (Hr0 : reload_at O (g_disk g) SavePoints None = None) by (unfold reload_at; by destruct (_ && _)).
            rewrite Hr0. rewrite list_insert_insert. destruct g; cbn in *.
            rewrite (count_live_nat fl k (Some t) None Hk). cbv iota. rewrite Z.add_0_r. done. }
        destruct (g_mask g) as [b|] eqn:Hmk.
        * destruct (existsb id (nflat b)) eqn:Eb; [destruct (k <? length (nflat b))%nat eqn:El|].
          -- cbn [exn_of st_of]. destruct (Hfin (Some (Nd (nrows b) (ncols b) (<[k:=false]> (nflat b))))) as (e & E1 & E2). cbn [st_of] in *.
             split; [intros _; exact E1|]. intros _. eexists. split; [exact E2|]. cbn. rewrite insert_length. split; [done|congruence].
          -- cbn [exn_of st_of]. split; [|done]. unfold mask_fits. rewrite Hmk. intros [Hx|Hx]; [cbn in Hx; congruence|]. apply Nat.ltb_ge in El. lia.
          -- cbn [exn_of st_of]. destruct (Hfin (Some b)) as (e & E1 & E2). cbn [st_of] in *.
             split; [intros _; exact E1|]. intros _. eexists. split; [exact E2|]. done.
        * cbn [exn_of st_of]. destruct (Hfin None) as (e & E1 & E2). cbn [st_of] in *.
          split; [intros _; exact E1|]. intros _. eexists. split; [exact E2|]. done.
      + cbn [exn_of st_of]. destruct (Hsave g1 (<[k := Some t']> fl) (Some t')) as [E1 E2]; [done|done|done|rewrite list_lookup_insert; [done|lia]|].
        split; [done|]. intros _. exists (g_mask g). split; [|apply mask_like_refl]. rewrite E2.
        rewrite list_insert_insert. unfold g1.
        assert (count_live (<[k:=reload_at O (g_disk g) SavePoints (Some t')]> fl) = count_live fl) as ->.
        { rewrite (count_live_nat fl k (Some t) _ Hk). unfold reload_at. destruct (_ && _); cbn; lia. }
        rewrite <- Hn. destruct g as [[] ? ? ? ?]; done.
    - cbn [exn_of st_of]. destruct (Hsave g fl None) as [E1 E2]; [done..|]. split; [done|]. intros _. exists (g_mask g). split; [|apply mask_like_refl].
      rewrite E2. assert (Hr0 : reload_at O (g_disk g) SavePoints None = None) by (unfold reload_at; by destruct (_ && _)).
      rewrite Hr0. cbn [rem_slot]. rewrite list_insert_id by done. rewrite <- Hn. destruct g as [[] ? ? ? ?]; done.
  Qed.

  Definition after_remove (g : grid T) (mk : option (nd bool)) (ny nx : nat) (fl : list (option T)) : grid T :=
    g <| g_mask := mk |> <| g_tiles := Some (Nd ny nx fl) |> <| g_meta := g_meta g <| m_ntiles := Some (count_live fl) |> |>.

  Lemma remove_loop g ct lx ly nx ny a c :
    placed g ct lx ly nx ny a -> m_ntiles (g_meta g) = Some (count_live (nflat a)) ->
    let out := oloop (remove_from_tile O c) (seq 0 (tiles_size g)) g in
    (mask_fits g (ny * nx) -> exn_of out = None) /\
    (exn_of out = None -> exists mk fl,
       st_of out = after_remove g mk ny nx fl /\
       mask_like (g_mask g) mk /\
       length fl = (ny * nx)%nat /\ (forall k, fl !! k = rem_slot (g_disk g) c <$> nflat a !! k) /\
       slots m0 rep lx ly nx ny fl (drop_c ct c)).
  Proof using L.
    intros [Hnx Hny Hge Ha Hr Hc [Hlen Hsl] Hrect] Hn out.
    assert (Hsz : tiles_size g = (ny * nx)%nat) by (unfold tiles_size; by rewrite Ha).
    pose (Inv := fun (dn : list nat) (g' : grid T) => exists mk fl,
       g' = after_remove g mk ny nx fl /\
       mask_like (g_mask g) mk /\
       length fl = (ny * nx)%nat /\
       (forall k o, nflat a !! k = Some o -> fl !! k = Some (if decide (k < length dn)%nat then rem_slot (g_disk g) c o else o))).
    assert (H0 : Inv [] g).
    { exists (g_mask g), (nflat a). split; [|split; [apply mask_like_refl|]; split; [done|]].
      - unfold after_remove. rewrite <- Hn. destruct g as [[] ? ? ? ?]. destruct a. cbn in *. by subst.
      - intros k o Hk. rewrite decide_False by (cbn; lia). done. }
    assert (Hstep : forall dn k rest g', seq 0 (tiles_size g) = dn ++ k :: rest -> Inv dn g' ->
      (mask_fits g (ny * nx) -> exn_of (remove_from_tile O c g' k) = None) /\
      (exn_of (remove_from_tile O c g' k) = None -> Inv (dn ++ [k]) (st_of (remove_from_tile O c g' k)))).
    { intros dn k rest g' Hseq (mk & fl & -> & Hmk & Hlf & Hfl).
      assert (k = length dn) as ->.
      { assert (E : seq 0 (tiles_size g) !! length dn = Some k) by (rewrite Hseq; by apply list_lookup_middle).
        apply lookup_seq in E as [E _]. done. }
      assert (Hlt : (length dn < ny * nx)%nat).
      { assert (E : seq 0 (tiles_size g) !! length dn = Some (length dn)) by (rewrite Hseq; by apply list_lookup_middle).
        apply lookup_seq in E as [_ E]. lia. }
      destruct (flat_div_lt _ _ _ Hlt) as [H1 H2]. destruct (Hsl _ _ H1 H2) as (o & Ho & Hslot). rewrite <- flat_split in Ho by lia.
      pose proof (Hfl _ _ Ho) as Hk. rewrite decide_False in Hk by lia.
      destruct (remove_step (after_remove g mk ny nx fl) lx ly nx ny fl c (length dn) o) as [S1 S2]; [done..| |].
      { intros t ->. cbn in Hslot. destruct Hslot as [_ Hrep]. by apply (tl_remove O m0 rep L _ _ _ _ c Hrep). }
      split.
      - intros Hfit. apply S1. by eapply (mask_fits_like g).
      - intros He. destruct (S2 He) as (mk' & -> & Hmk'). cbn [g_disk after_remove].
        exists mk', (<[length dn := rem_slot (g_disk g) c o]> fl). split; [done|]. split; [by eapply mask_like_trans|].
        split; [by rewrite insert_length|]. intros k' o' Hk'. rewrite app_length. cbn.
        destruct (decide (k' = length dn)) as [->|Hne].
        + rewrite list_lookup_insert by lia. rewrite decide_True by lia. rewrite Ho in Hk'. by injection Hk' as ->.
        + rewrite list_lookup_insert_ne by done. rewrite (Hfl _ _ Hk'). f_equal.
          destruct (decide (k' < length dn)%nat), (decide (k' < length dn + 1)%nat); done || lia. }
    split.
    - intros Hfit. apply (oloop_ok _ _ Inv); [done|]. intros dn k rest g' Hseq HI.
      destruct (Hstep dn k rest g' Hseq HI) as [S1 S2]. auto.
    - intros He. destruct (oloop_inv_ok (remove_from_tile O c) (seq 0 (tiles_size g)) Inv g H0) as (mk & fl & E1 & E2 & E3 & E4); [|exact He|].
      { intros dn k rest g' Hseq HI He'. destruct (Hstep dn k rest g' Hseq HI) as [S1 S2]. auto. }
      exists mk, fl. split; [done|]. split; [done|]. split; [done|].
      rewrite seq_length, Hsz in E4.
      assert (Hall : forall k, fl !! k = rem_slot (g_disk g) c <$> nflat a !! k).
      { intros k. destruct (nflat a !! k) as [o|] eqn:Hk.
        - rewrite (E4 _ _ Hk). rewrite decide_True; [done|]. rewrite <- Hlen. by eapply lookup_lt_Some.
        - cbn. apply lookup_ge_None. apply lookup_ge_None in Hk. lia. }
      split; [done|]. split; [done|]. intros r c' Hr' Hc'. destruct (Hsl r c' Hr' Hc') as (o & Ho & Hslot).
      exists (rem_slot (g_disk g) c o). rewrite Hall, Ho. split; [done|].
      rewrite content_in_drop. destruct o as [t|]; cbn.
      + destruct Hslot as [Hne Hrep]. destruct (tl_remove O m0 rep L _ _ _ _ c Hrep) as [_ Hrep'].
        rewrite (tl_empty O m0 rep L _ _ _ _ Hrep').
        assert (Hnz : all_points (drop_c (content_in (lx + Z.of_nat c' * s) (ly + Z.of_nat r * s) s ct) c) = [] ->
          drop_c (content_in (lx + Z.of_nat c' * s) (ly + Z.of_nat r * s) s ct) c = []).
        { intros Hz. rewrite <- content_in_drop in Hz |- *. apply all_points_nil_iff in Hz; [done|]. apply content_in_nonempty. }
        case_bool_decide as Hz; [by apply Hnz|]. apply (reload_slot O m0 rep L). split; [|done].
        intros Hd. rewrite Hd in Hz. done.
      + cbn in Hslot. by rewrite Hslot.
  Qed.

  Lemma drop_c_full ct c : Forall (fun e : string * list point => e.2 <> []) ct -> Forall (fun e : string * list point => e.2 <> []) (drop_c ct c).
  Proof.
    clear. rewrite !Forall_forall. unfold drop_c. intros H x Hx. apply elem_of_list_filter in Hx as [_ Hx]. by apply H.
  Qed.
  Lemma slots_is_empty (g : grid T) ct lx ly nx ny a :
    g_tiles g = Some a -> slots m0 rep lx ly nx ny (nflat a) ct ->
    Forall (in_rect lx ly s nx ny) (map xy_of (all_points ct)) ->
    Forall (fun e : string * list point => e.2 <> []) ct ->
    g_is_empty g = bool_decide (ct = []).
  Proof using Hs.
    intros Ha Hsl Hrect Hf. case_bool_decide as Hct.
    - subst ct. unfold g_is_empty. rewrite Ha. apply forallb_forall. intros o Ho%elem_of_list_In.
      apply elem_of_list_lookup in Ho as [k Hk]. destruct Hsl as [Hlen Hsl].
      assert (Hlt : (k < ny * nx)%nat) by (rewrite <- Hlen; by eapply lookup_lt_Some).
      destruct (flat_div_lt _ _ _ Hlt) as [H1 H2]. destruct (Hsl _ _ H1 H2) as (o' & Ho & Hslot).
      rewrite <- flat_split in Ho by lia. rewrite Ho in Hk. injection Hk as ->. destruct o; [|done]. cbn in Hslot. tauto.
    - edestruct (slots_live m0 rep Hs) as (k & t & Hk); [done|done| |].
      + intros Hnil. apply Hct. by apply all_points_nil_iff.
      + by eapply (not_empty_live g a).
  Qed.

  Definition dropped (g : grid T) (c : string) : grid T :=
    g <| g_meta := g_meta g <| m_container := ddel (m_container (g_meta g)) c |>
                            <| m_timestamp := ddel (m_timestamp (g_meta g)) c |> |>.

  Lemma remove_placed g ct lx ly nx ny a c :
    placed g ct lx ly nx ny a -> m_ntiles (g_meta g) = Some (count_live (nflat a)) ->
    Forall (fun e : string * list point => e.2 <> []) ct -> ct <> [] ->
    c ∈ dkeys (m_container (g_meta g)) ->
    let out := g_remove_points O g c in
    (mask_fits g (ny * nx) -> exn_of out = None) /\
    (exn_of out = None -> exists mk fl,
       st_of out = (let g1 := after_remove (dropped g c) mk ny nx fl in
                    if bool_decide (drop_c ct c = []) then g1 <| g_tiles := None |> else g1) /\
       mask_like (g_mask g) mk /\
       length fl = (ny * nx)%nat /\ (forall k, fl !! k = rem_slot (g_disk g) c <$> nflat a !! k) /\
       slots m0 rep lx ly nx ny fl (drop_c ct c) /\
       placed (after_remove (dropped g c) mk ny nx fl) (drop_c ct c) lx ly nx ny (Nd ny nx fl)).
  Proof using L Hs.
    intros Hpl Hn Hf Hne Hc out. unfold out, g_remove_points. rewrite (proj2 (dmem_true _ _) Hc). cbn [negb].
    fold (dropped g c). set (g1 := dropped g c).
    assert (Hpl1 : placed g1 ct lx ly nx ny a) by (destruct Hpl; by split).
    assert (He : g_is_empty g1 = false).
    { rewrite (slots_is_empty g1 ct lx ly nx ny a); [by apply bool_decide_eq_false_2|apply Hpl1..|done]. }
    rewrite He. destruct (remove_loop g1 ct lx ly nx ny a c Hpl1 Hn) as [R1 R2]. split.
    - intros Hfit. by rewrite R1.
    - destruct (exn_of (oloop _ _ _)) eqn:Ex; [congruence|]. intros _. specialize (R2 eq_refl).
      destruct R2 as (mk & fl & E1 & E2 & E3 & E4 & E5).
      assert (Hp' : placed (after_remove g1 mk ny nx fl) (drop_c ct c) lx ly nx ny (Nd ny nx fl)).
      { destruct Hpl1. split; try done. apply Forall_fmap. apply drop_c_Forall. apply (Forall_fmap xy_of). exact pl_rect0. }
      exists mk, fl. cbn [st_of]. rewrite E1.
      rewrite (slots_is_empty (after_remove g1 mk ny nx fl) (drop_c ct c) lx ly nx ny (Nd ny nx fl)).
      + split; [by case_bool_decide|]. done.
      + done.
      + done.
      + apply Hp'.
      + by apply drop_c_full.
  Qed.

  Lemma remove_unknown (g : grid T) c : c ∉ dkeys (m_container (g_meta g)) -> g_remove_points O g c = Out g [] None.
  Proof. intros H. unfold g_remove_points. by rewrite (proj2 (dmem_false _ _) H). Qed.

  Lemma no_live g ct lx ly nx ny a : placed g ct lx ly nx ny a -> ct = [] -> count_live (nflat a) = 0.
  Proof using Hs.
    intros Hpl ->. pose proof (slots_is_empty g [] lx ly nx ny a) as Hem.
    specialize (Hem (pl_tiles _ _ _ _ _ _ _ Hpl) (pl_slots _ _ _ _ _ _ _ Hpl) (pl_rect _ _ _ _ _ _ _ Hpl) ltac:(constructor)).
    rewrite bool_decide_eq_true_2 in Hem by done. unfold g_is_empty in Hem. rewrite (pl_tiles _ _ _ _ _ _ _ Hpl) in Hem.
    rewrite forallb_forall in Hem. clear -Hem. unfold count_live. induction (nflat a) as [|[t|] fl IH]; [done| |].
    - specialize (Hem (Some t) ltac:(by left)). done.
    - simpl. apply IH. intros x Hx. apply Hem. by right.
  Qed.

  Section fixed2.
    Context (Hgrow : m_can_grow m0 = false) (X Y W : Z) (HW : 0 < W) (HX : m_ext m0 = Some (Ext X Y (X + W) (Y + W))).
    Lemma child_remove g ct c :
      child_inv X Y W g ct ->
      exn_of (g_remove_points O g c) = None /\ child_inv X Y W (st_of (g_remove_points O g c)) (drop_c ct c).
    Proof using L Hs.
      intros [B Hst]. pose proof B as [Bm Be Bk Bv Bc Bnd Bf Bi].
      destruct (decide (c ∈ dkeys (m_container (g_meta g)))) as [Hin|Hin].
      - destruct Hst as [(Ht & -> & _)|(Hne & ar & Hpl & Hnn & Hww)].
        { rewrite <- Bc in Hin. by apply not_elem_of_nil in Hin. }
        destruct (remove_placed g ct X Y _ _ ar c Hpl Hnn Bf Hne Hin) as [R1 R2].
        assert (He : exn_of (g_remove_points O g c) = None) by (apply R1; by left).
        split; [done|]. destruct (R2 He) as (mk & fl & E1 & E2 & E3 & E4 & E5 & E6). rewrite E1. clear R1 R2 E1.
        pose proof (mask_like_clear _ _ E2 Bk) as ->. cbv zeta. split.
        + assert (Hb : child_base X Y W (after_remove (dropped g c) (g_mask g) (Z.to_nat (ceil_div W s)) (Z.to_nat (ceil_div W s)) fl) (drop_c ct c)).
          { split; try done.
            - destruct Bm; by split.
            - intros c'. change (m_container (g_meta (after_remove _ _ _ _ _))) with (ddel (m_container (g_meta g)) c).
              rewrite drop_c_keys, dkeys_ddel. rewrite !elem_of_list_filter. by rewrite Bc.
            - by apply drop_c_nodup.
            - by apply drop_c_full.
            - by apply drop_c_Forall. }
          case_bool_decide; [|done]. destruct Hb. by split.
        + case_bool_decide as Hz.
          * left. split; [done|]. split; [done|]. right. cbn. f_equal.
            apply (no_live (after_remove (dropped g c) (g_mask g) (Z.to_nat (ceil_div W s)) (Z.to_nat (ceil_div W s)) fl) (drop_c ct c)
                     X Y (Z.to_nat (ceil_div W s)) (Z.to_nat (ceil_div W s))
                     (Nd (Z.to_nat (ceil_div W s)) (Z.to_nat (ceil_div W s)) fl)); [done|done].
          * right. split; [done|]. exists (Nd (Z.to_nat (ceil_div W s)) (Z.to_nat (ceil_div W s)) fl). done.
      - rewrite remove_unknown by done. split; [done|]. cbn. rewrite drop_c_notin by (by rewrite Bc). done.
    Qed.
  End fixed2.
End inv.
