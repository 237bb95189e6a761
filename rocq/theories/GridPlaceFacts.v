(** Placement of points and tiles in a grid, over any kind of tiles. *)
From Verif Require Import Py Nd Numpy Point Bin Algorithms Tile Time Meta Disk Grid Spec.
From Verif Require Import PyFacts NdFacts NumpyFacts BinFacts TileFacts GridBaseFacts.
Open Scope Z_scope.

(** The attributes fixed at creation. *)
Record meta_frame (m0 m : gmeta) : Prop := {
  mf_size : m_tile_size m = m_tile_size m0; mf_sub : m_subtile_size m = m_subtile_size m0;
  mf_back : m_backscatter m = m_backscatter m0; mf_zarr : m_zarr m = m_zarr m0;
  mf_grow : m_can_grow m = m_can_grow m0; mf_ox : m_origin_x m = m_origin_x m0;
  mf_oy : m_origin_y m = m_origin_y m0; mf_name : m_name m = m_name m0;
  mf_sub_type : m_sub_is_tile m = m_sub_is_tile m0 }.
Lemma meta_frame_refl m : meta_frame m m.
Proof. by split. Qed.
Lemma meta_frame_trans a b c : meta_frame a b -> meta_frame b c -> meta_frame a c.
Proof. intros [] []. split; congruence. Qed.

(** What update_metadata leaves alone, and what it does to the containers. *)
Lemma update_metadata_spec m a m1 eo :
  update_metadata m a = (m1, eo) ->
  meta_frame m m1 /\ m_ext m1 = m_ext m /\ m_width m1 = m_width m /\ m_height m1 = m_height m /\
  m_max_tiles m1 = m_max_tiles m /\ m_ntiles m1 = m_ntiles m /\ m_mean_depth m1 = m_mean_depth m /\
  m_rezs m1 = m_rezs m /\ m_algorithm m1 = m_algorithm m /\ m_grez m1 = m_grez m /\ m_params m1 = m_params m /\
  match eo with
  | None => m_container m1 = dset (m_container m) (a_container a) (match a_files a with [] => ["Unknown"] | l => l end) /\
            m_timestamp m1 = dset (m_timestamp m) (a_container a) (a_now a) /\ m_vref m1 = a_vref a
  | Some _ => m_container m1 = m_container m /\ m_timestamp m1 = m_timestamp m /\ m_vref m1 = m_vref m
  end.
Proof.
  intros H. unfold update_metadata in H. repeat case_match; simplify_eq; (split; [by split|]); simpl; tauto.
Qed.

(** A nested call passes only the container name (bgrid.py:656). *)
Definition nested (a : add_args) : Prop :=
  a_crs a = None /\ a_vref a = None /\ a_min_time a = None /\ a_max_time a = None.
Lemma nested_args_nested a : nested (nested_args a).
Proof. done. Qed.
Lemma nested_update m a : nested a -> m_vref m = None ->
  exists m1, update_metadata m a = (m1, None) /\ m_vref m1 = None /\
    m_container m1 = dset (m_container m) (a_container a) (match a_files a with [] => ["Unknown"] | l => l end).
Proof.
  intros (H1 & H2 & H3 & H4) Hv. unfold update_metadata. rewrite H1, H2, H3, H4, Hv.
  destruct (truthy_z (m_epsg m)); (eexists; split; [reflexivity|]); done.
Qed.

Definition std_geom (lx ly s : Z) (nx ny : nat) : geom :=
  Geom (meshgrid_x (uniform lx s nx) (uniform ly s ny)) (meshgrid_y (uniform lx s nx) (uniform ly s ny))
    (uniform lx s (S nx)) (uniform ly s (S ny)).

Lemma std_geom_x lx ly s nx ny r c : (r < ny)%nat -> (c < nx)%nat ->
  nflat (gx (std_geom lx ly s nx ny)) !! (r * nx + c)%nat = Some (lx + Z.of_nat c * s).
Proof.
  intros. unfold std_geom. cbn [gx]. rewrite meshgrid_x_flat; rewrite ?uniform_length; [|by apply flat_lt].
  rewrite flat_mod by done. by rewrite uniform_lookup.
Qed.
Lemma std_geom_y lx ly s nx ny r c : (r < ny)%nat -> (c < nx)%nat ->
  nflat (gy (std_geom lx ly s nx ny)) !! (r * nx + c)%nat = Some (ly + Z.of_nat r * s).
Proof.
  intros. unfold std_geom. cbn [gy]. rewrite meshgrid_y_flat; rewrite ?uniform_length; [|by apply flat_lt].
  rewrite flat_div by done. by rewrite uniform_lookup.
Qed.
Lemma std_geom_len lx ly s nx ny : length (nflat (gx (std_geom lx ly s nx ny))) = (ny * nx)%nat.
Proof.
  unfold std_geom. cbn [gx]. pose proof (meshgrid_x_wf (uniform lx s nx) (uniform ly s ny)) as H. unfold nd_wf in H. rewrite H.
  simpl. by rewrite !uniform_length.
Qed.

(** The points of [d] in the square of location (r, c). *)
Lemma select_cell lx ly s nx ny r c (d : list point) :
  0 < s -> (r < ny)%nat -> (c < nx)%nat -> Forall (in_rect lx ly s nx ny) (map xy_of d) ->
  mask_select (map (fun b => bool_decide (b = Z.of_nat (r * nx + c)))
                 (map (cell_number lx ly s nx) (map xy_of d))) d =
  filter (fun p => in_square (lx + Z.of_nat c * s) (ly + Z.of_nat r * s) s (px p) (py p)) d.
Proof.
  intros Hs Hr Hc. induction d as [|p d IH]; intros Hd; [done|].
  cbn [map] in *. apply Forall_cons in Hd as [Hp Hd]. rewrite filter_cons. cbn [mask_select].
  pose proof (cell_number_in_cell lx ly s nx ny r c (xy_of p) Hs Hp Hc) as Hiff.
  destruct (decide (in_square (lx + Z.of_nat c * s) (ly + Z.of_nat r * s) s (px p) (py p))) as [Hin|Hin].
  - rewrite bool_decide_eq_true_2; [by rewrite IH|]. apply Hiff. unfold in_square in Hin. unfold in_cell, xy_of. simpl. lia.
  - rewrite bool_decide_eq_false_2; [by apply IH|]. intros Heq%Hiff. apply Hin. unfold in_cell, xy_of in Heq. simpl in Heq.
    unfold in_square. lia.
Qed.

Section place.
  Context {T : Type} (O : tile_ops T) (m0 : gmeta) (rep : T -> Z -> Z -> content -> Prop).
  Notation s := (m_tile_size m0).

  (** What a kind of tiles must satisfy: [rep t x y ct] says that tile [t] at (x, y) holds [ct]. *)
  Record tile_laws : Prop := {
    tl_build m disk x y : meta_frame m0 m -> rep (op_build O m disk x y) x y [];
    tl_add t x y ct d a : rep t x y ct -> d <> [] -> Forall (fun p => in_square x y s (px p) (py p)) d ->
      a_container a ∉ ct.*1 -> nested a ->
      exn_of (op_add O t d a) = None /\ rep (st_of (op_add O t d a)) x y (ct ++ [(a_container a, d)]);
    tl_remove t x y ct c : rep t x y ct ->
      exn_of (op_remove O t c) = None /\ rep (st_of (op_remove O t c)) x y (drop_c ct c);
    tl_empty t x y ct : rep t x y ct -> op_empty O t = bool_decide (all_points ct = []);
    tl_count t x y ct : rep t x y ct -> op_count O t = length (all_points ct);
    tl_reload md t x y ct : rep t x y ct -> rep (op_reload O md t) x y ct }.

  Definition slot_ok (x y : Z) (ct : content) (o : option T) : Prop :=
    match o with None => ct = [] | Some t => ct <> [] /\ rep t x y ct end.
  Definition slots (lx ly : Z) (nx ny : nat) (fl : list (option T)) (ct : content) : Prop :=
    length fl = (ny * nx)%nat /\
    forall r c, (r < ny)%nat -> (c < nx)%nat -> exists o, fl !! (r * nx + c)%nat = Some o /\
      slot_ok (lx + Z.of_nat c * s) (ly + Z.of_nat r * s)
        (content_in (lx + Z.of_nat c * s) (ly + Z.of_nat r * s) s ct) o.

  Context (L : tile_laws) (Hs : 0 < s).

  Lemma reload_slot disk md x y ct o : slot_ok x y ct o -> slot_ok x y ct (reload_at O disk md o).
  Proof using L.
    unfold reload_at. destruct (disk && op_sr O); [|done]. destruct o as [t|]; [|done]. cbn [option_map].
    intros [Hne Hr]. split; [done|]. by apply (tl_reload L).
  Qed.

  (** The tile found at a location after [pts] were added there. *)
  Definition new_slot (m : gmeta) (disk : bool) (x y : Z) (a : add_args) (pts : list point) (cur : option T) : option T :=
    reload_at O disk SavePoints (Some (st_of (op_add O (default (op_build O m disk x y) cur) pts (nested_args a)))).

  Lemma add_to_tile_spec m disk lx ly nx ny a d fl ct r c :
    meta_frame m0 m -> (r < ny)%nat -> (c < nx)%nat -> a_container a ∉ ct.*1 ->
    let x := lx + Z.of_nat c * s in
    let y := ly + Z.of_nat r * s in
    let k := (r * nx + c)%nat in
    let pts := filter (fun p => in_square x y s (px p) (py p)) d in
    Forall (in_rect lx ly s nx ny) (map xy_of d) -> pts <> [] ->
    forall o, fl !! k = Some o -> slot_ok x y (content_in x y s ct) o ->
    let out := add_to_tile O m disk (std_geom lx ly s nx ny) a d (map (cell_number lx ly s nx) (map xy_of d)) fl (Z.of_nat k) in
    exn_of out = None /\ st_of out = <[k := new_slot m disk x y a pts o]> fl /\
    slot_ok x y (content_in x y s (ct ++ [(a_container a, d)])) (new_slot m disk x y a pts o).
  Proof using L Hs.
    intros Hm Hr Hc Hfresh x y k pts Hrect Hpts o Ho Hslot. unfold add_to_tile. cbv zeta.
    rewrite Nat2Z.id. fold k. rewrite Ho. unfold k. rewrite std_geom_x, std_geom_y by done.
    rewrite (select_cell lx ly s nx ny r c d Hs Hr Hc Hrect). fold k. fold x y. fold pts.
    set (t0 := default (op_build O m disk x y) o).
    assert (Ht0 : rep t0 x y (content_in x y s ct)).
    { subst t0. destruct o as [t|]; simpl in *; [by destruct Hslot|]. rewrite Hslot. by apply (tl_build L). }
    assert (Hin : Forall (fun p => in_square x y s (px p) (py p)) pts).
    { apply Forall_forall. intros p Hp%elem_of_list_filter. tauto. }
    destruct (tl_add L t0 x y _ pts (nested_args a) Ht0 Hpts Hin) as [He Hrep].
    { cbn. intros Hc'. by apply content_in_keys in Hc'. }
    { apply nested_args_nested. }
    rewrite He. cbn [exn_of st_of].
    assert (Hem : op_empty O (st_of (op_add O t0 pts (nested_args a))) = false).
    { rewrite (tl_empty L _ _ _ _ Hrep). apply bool_decide_eq_false_2. rewrite all_points_app.
      intros Hnil. apply app_eq_nil in Hnil as [_ Hnil]. unfold all_points in Hnil. simpl in Hnil. by rewrite app_nil_r in Hnil. }
    rewrite Hem. split; [done|]. split; [done|].
    unfold new_slot. fold t0. apply reload_slot. split.
    - rewrite content_in_cons_app by done. intros H. by apply app_eq_nil in H as [_ H].
    - rewrite content_in_cons_app by done. exact Hrep.
  Qed.

  Definition add_slot m disk lx ly nx a (d : list point) (fl : list (option T)) (r c : nat) : option (option T) :=
    let x := lx + Z.of_nat c * s in
    let y := ly + Z.of_nat r * s in
    match filter (fun p => in_square x y s (px p) (py p)) d with
    | [] => fl !! (r * nx + c)%nat
    | pts => new_slot m disk x y a pts <$> fl !! (r * nx + c)%nat
    end.

  Lemma add_loop m disk lx ly nx ny a d fl ct :
    meta_frame m0 m -> a_container a ∉ ct.*1 -> slots lx ly nx ny fl ct ->
    Forall (in_rect lx ly s nx ny) (map xy_of d) ->
    let bins := map (cell_number lx ly s nx) (map xy_of d) in
    let out := oloop (add_to_tile O m disk (std_geom lx ly s nx ny) a d bins) (np_unique bins) fl in
    exn_of out = None /\ length (st_of out) = (ny * nx)%nat /\
    (forall r c, (r < ny)%nat -> (c < nx)%nat -> st_of out !! (r * nx + c)%nat = add_slot m disk lx ly nx a d fl r c) /\
    slots lx ly nx ny (st_of out) (ct ++ [(a_container a, d)]).
  Proof using L Hs.
    intros Hm Hfresh [Hlen Hsl] Hrect bins out.
    set (sel r c := filter (fun p => in_square (lx + Z.of_nat c * s) (ly + Z.of_nat r * s) s (px p) (py p)) d).
    assert (Hsel : forall r c, (r < ny)%nat -> (c < nx)%nat -> Z.of_nat (r * nx + c) ∈ bins <-> sel r c <> []).
    { intros r c Hr Hc. unfold bins, sel. split.
      - intros (q & Hq & Hin)%elem_of_list_fmap. apply elem_of_list_fmap in Hin as (p & -> & Hin).
        rewrite Forall_forall in Hrect. assert (Hp : in_rect lx ly s nx ny (xy_of p)).
        { apply Hrect. by apply (elem_of_list_fmap_1 xy_of). }
        pose proof (cell_number_in_cell lx ly s nx ny r c (xy_of p) Hs Hp Hc) as Hiff.
        symmetry in Hq. apply Hiff in Hq. intros Hnil.
        assert (Hsq : in_square (lx + Z.of_nat c * s) (ly + Z.of_nat r * s) s (px p) (py p)).
        { unfold in_cell, xy_of in Hq. simpl in Hq. unfold in_square. lia. }
        apply (not_elem_of_nil p). rewrite <- Hnil. by apply elem_of_list_filter.
      - intros Hne. destruct (exists_cons _ Hne) as (p & l & Hl).
        assert (Hp : p ∈ p :: l) by left. rewrite <- Hl in Hp. apply elem_of_list_filter in Hp as [Hin Hp].
        rewrite Forall_forall in Hrect. assert (Hr' : in_rect lx ly s nx ny (xy_of p)).
        { apply Hrect. by apply (elem_of_list_fmap_1 xy_of). }
        pose proof (cell_number_in_cell lx ly s nx ny r c (xy_of p) Hs Hr' Hc) as Hiff.
        apply elem_of_list_fmap. exists (xy_of p). split; [|by apply (elem_of_list_fmap_1 xy_of)].
        symmetry. apply Hiff. unfold in_square in Hin. unfold in_cell, xy_of. simpl. lia. }
    assert (Hk : forall u, u ∈ bins -> exists r c, (r < ny)%nat /\ (c < nx)%nat /\ u = Z.of_nat (r * nx + c)).
    { intros u (q & -> & Hq)%elem_of_list_fmap. rewrite Forall_forall in Hrect. apply Hrect in Hq.
      pose proof (cell_number_range lx ly s nx ny q Hs Hq) as Hrange.
      assert (Hlt : (Z.to_nat (cell_number lx ly s nx q) < ny * nx)%nat) by lia.
      destruct (flat_div_lt _ _ _ Hlt) as [H1 H2].
      eexists _, _. split; [exact H1|]. split; [exact H2|].
      rewrite <- flat_split by lia. rewrite Z2Nat.id; lia. }
    pose (Inv := fun (dn : list Z) (l : list (option T)) =>
      length l = (ny * nx)%nat /\ forall r c, (r < ny)%nat -> (c < nx)%nat ->
        l !! (r * nx + c)%nat = if decide (Z.of_nat (r * nx + c) ∈ dn)
          then new_slot m disk (lx + Z.of_nat c * s) (ly + Z.of_nat r * s) a (sel r c) <$> fl !! (r * nx + c)%nat
          else fl !! (r * nx + c)%nat).
    destruct (oloop_ok (add_to_tile O m disk (std_geom lx ly s nx ny) a d bins) (np_unique bins) Inv fl) as [He HI].
    - split; [done|]. intros r c Hr Hc. rewrite decide_False; [done|]. apply not_elem_of_nil.
    - intros dn u rest l Hl [Hll HIl].
      assert (Hu : u ∈ bins). { apply elem_of_np_unique. rewrite Hl. apply elem_of_app. right. left. }
      assert (Hnd : u ∉ dn).
      { pose proof (np_unique_NoDup bins) as Hn. rewrite Hl in Hn. apply NoDup_app in Hn as (_ & Hn & _).
        intros Hd. apply (Hn _ Hd). left. }
      destruct (Hk u Hu) as (r & c & Hr & Hc & ->).
      destruct (Hsl r c Hr Hc) as (o & Ho & Hslot).
      pose proof (HIl r c Hr Hc) as Hlk. rewrite decide_False in Hlk by done. rewrite Ho in Hlk.
      destruct (add_to_tile_spec m disk lx ly nx ny a d l ct r c Hm Hr Hc Hfresh Hrect) with (o := o)
        as (H1 & H2 & _); [by apply Hsel|done|done|].
      fold bins in H1, H2. split; [done|]. rewrite H2. split; [by rewrite insert_length|].
      intros r' c' Hr' Hc'. destruct (decide ((r' * nx + c')%nat = (r * nx + c)%nat)) as [Heq|Hneq].
      + apply flat_inj in Heq as [-> ->]; [|done|done]. rewrite list_lookup_insert by (rewrite Hll; by apply flat_lt).
        rewrite decide_True by (apply elem_of_app; right; left). rewrite Ho. done.
      + rewrite list_lookup_insert_ne by done. rewrite HIl by done.
        destruct (decide (Z.of_nat (r' * nx + c') ∈ dn)) as [Hd|Hd].
        * rewrite decide_True by (apply elem_of_app; by left). done.
        * rewrite decide_False; [done|]. intros [?|Hx]%elem_of_app; [done|].
          apply elem_of_list_singleton in Hx. lia.
    - fold out in He, HI. destruct HI as [Hlo HI]. split; [done|]. split; [done|].
      assert (Hadd : forall r c, (r < ny)%nat -> (c < nx)%nat -> st_of out !! (r * nx + c)%nat = add_slot m disk lx ly nx a d fl r c).
      { intros r c Hr Hc. rewrite HI by done. unfold add_slot. fold (sel r c).
        destruct (decide (Z.of_nat (r * nx + c) ∈ np_unique bins)) as [Hin|Hin].
        - apply elem_of_np_unique, Hsel in Hin; [|done|done]. by destruct (sel r c).
        - rewrite elem_of_np_unique, Hsel in Hin by done. destruct (sel r c); [done|]. by destruct Hin. }
      split; [done|]. split; [done|]. intros r c Hr Hc. rewrite Hadd by done. unfold add_slot. fold (sel r c).
      destruct (Hsl r c Hr Hc) as (o & Ho & Hslot).
      destruct (sel r c) as [|p l] eqn:E.
      + exists o. split; [done|]. rewrite content_in_nil_app by done. done.
      + rewrite Ho. eexists. split; [reflexivity|]. unfold sel in E. rewrite <- E.
        destruct (add_to_tile_spec m disk lx ly nx ny a d fl ct r c Hm Hr Hc Hfresh Hrect) with (o := o)
          as (_ & _ & H3); [by rewrite E|done|done|]. done.
  Qed.

  (** ** Emptiness and counting *)
  (** A non-empty content has a live tile. *)
  Lemma slots_live lx ly nx ny fl ct :
    slots lx ly nx ny fl ct -> Forall (in_rect lx ly s nx ny) (map xy_of (all_points ct)) -> all_points ct <> [] ->
    exists k t, fl !! k = Some (Some t).
  Proof using Hs.
    intros [Hlen Hsl] Hrect Hne. destruct (exists_cons _ Hne) as (p & l & Hl).
    assert (Hp : p ∈ all_points ct) by (rewrite Hl; left).
    rewrite Forall_forall in Hrect. assert (Hr : in_rect lx ly s nx ny (xy_of p)) by (apply Hrect; by apply (elem_of_list_fmap_1 xy_of)).
    pose proof (cell_number_range lx ly s nx ny (xy_of p) Hs Hr) as Hrange.
    assert (Hlt : (Z.to_nat (cell_number lx ly s nx (xy_of p)) < ny * nx)%nat) by lia.
    destruct (flat_div_lt _ _ _ Hlt) as [H1 H2].
    set (k := Z.to_nat (cell_number lx ly s nx (xy_of p))) in *.
    assert (Hk : k = (k / nx * nx + k mod nx)%nat) by (apply flat_split; lia).
    assert (Hc : in_cell lx ly s (k / nx) (k mod nx) (px p) (py p)).
    { apply (cell_number_in_cell lx ly s nx ny (k / nx) (k mod nx) (xy_of p) Hs Hr H2). rewrite <- Hk. unfold k. lia. }
    destruct (Hsl _ _ H1 H2) as (o & Ho & Hslot). destruct o as [t|]; [eauto|]. exfalso. simpl in Hslot.
    apply content_in_empty in Hslot. rewrite Forall_forall in Hslot. apply (Hslot p Hp).
    unfold in_cell in Hc. unfold in_square. lia.
  Qed.
  Lemma not_empty_live (g : grid T) a k t : g_tiles g = Some a -> nflat a !! k = Some (Some t) -> g_is_empty g = false.
  Proof.
    intros Ha Hk. unfold g_is_empty. rewrite Ha. apply not_true_iff_false. rewrite forallb_forall.
    intros H. assert (Some t ∈ nflat a) as Hin by (by eapply elem_of_list_lookup_2).
    apply elem_of_list_In in Hin. apply H in Hin. done.
  Qed.

  (** The number of points is that of the content. *)
  Lemma slots_points_sum lx ly nx ny fl ct :
    slots lx ly nx ny fl ct ->
    forall k r, (k <= ny * nx)%nat -> r = drop k fl ->
    list_sum (map (op_count O) (omap id r)) =
    list_sum (map (fun k => length (filter (fun p => in_square (lx + Z.of_nat (k mod nx) * s) (ly + Z.of_nat (k / nx) * s) s (px p) (py p))
                              (all_points ct))) (seq k (ny * nx - k))).
  Proof using L.
    intros [Hlen Hsl] k r Hk. remember (ny * nx - k)%nat as n eqn:En. revert k r Hk En.
    induction n as [|n IH]; intros k r Hk En ->.
    - rewrite drop_ge by lia. done.
    - assert (Hlt : (k < ny * nx)%nat) by lia. destruct (flat_div_lt _ _ _ Hlt) as [H1 H2].
      destruct (Hsl _ _ H1 H2) as (o & Ho & Hslot). rewrite <- flat_split in Ho by lia.
      rewrite (drop_S _ _ _ Ho). cbn [seq map list_sum].
      specialize (IH (S k) (drop (S k) fl) ltac:(lia) ltac:(lia) eq_refl).
      rewrite <- content_in_points. simpl list_sum. rewrite <- IH.
      destruct o as [t|]; simpl in *.
      + destruct Hslot as [_ Hrep]. by rewrite (tl_count L _ _ _ _ Hrep).
      + by rewrite Hslot.
  Qed.

  Lemma in_square_number lx ly nx ny k p :
    (k < ny * nx)%nat -> in_rect lx ly s nx ny (xy_of p) ->
    in_square (lx + Z.of_nat (k mod nx) * s) (ly + Z.of_nat (k / nx) * s) s (px p) (py p) <->
    k = Z.to_nat (cell_number lx ly s nx (xy_of p)).
  Proof using Hs.
    intros Hk Hp. destruct (flat_div_lt _ _ _ Hk) as [H1 H2].
    pose proof (cell_number_in_cell lx ly s nx ny (k / nx) (k mod nx) (xy_of p) Hs Hp H2) as Hiff.
    rewrite <- flat_split in Hiff by lia. pose proof (cell_number_range lx ly s nx ny _ Hs Hp).
    unfold in_cell, xy_of in Hiff. cbn [fst snd] in Hiff. unfold in_square. rewrite <- (Nat2Z.id k) at 1.
    split; intros Hx.
    - assert (cell_number lx ly s nx (xy_of p) = Z.of_nat k) by (apply Hiff; rewrite Nat2Z.id in Hx; lia). unfold xy_of in *. lia.
    - assert (cell_number lx ly s nx (px p, py p) = Z.of_nat k) as Hc by (unfold xy_of in *; lia). apply Hiff in Hc.
      rewrite Nat2Z.id. lia.
  Qed.
  Lemma list_sum_indicator (n j : nat) l : (j < n)%nat -> l = seq 0 n ->
    list_sum (map (fun k => if decide (k = j) then 1 else 0)%nat l) = 1%nat.
  Proof.
    intros Hj ->. replace n with (j + S (n - j - 1))%nat by lia. rewrite seq_app, map_app, list_sum_app.
    cbn [seq map]. rewrite decide_True by lia.
    assert (Hz : forall a b, (j < a \/ a + b <= j)%nat -> list_sum (map (fun k => if decide (k = j) then 1 else 0)%nat (seq a b)) = 0%nat).
    { intros a b. revert a. induction b as [|b IH]; intros a Hab; [done|]. cbn [seq map]. simpl list_sum.
      rewrite decide_False by lia. rewrite IH by lia. done. }
    rewrite Hz by lia. simpl. rewrite Hz by lia. done.
  Qed.
  Lemma cells_partition lx ly nx ny (d : list point) :
    Forall (in_rect lx ly s nx ny) (map xy_of d) ->
    list_sum (map (fun k => length (filter (fun p => in_square (lx + Z.of_nat (k mod nx) * s) (ly + Z.of_nat (k / nx) * s) s (px p) (py p)) d))
                (seq 0 (ny * nx))) = length d.
  Proof using Hs.
    induction d as [|p d IH]; intros Hd; cbn [map] in *.
    - induction (seq 0 (ny * nx)) as [|k l IHl]; [done|]. simpl. done.
    - apply Forall_cons in Hd as [Hp Hd]. specialize (IH Hd).
      transitivity (list_sum (map (fun k => if decide (k = Z.to_nat (cell_number lx ly s nx (xy_of p))) then 1 else 0)%nat (seq 0 (ny * nx))) +
        list_sum (map (fun k => length (filter (fun p => in_square (lx + Z.of_nat (k mod nx) * s) (ly + Z.of_nat (k / nx) * s) s (px p) (py p)) d))
                (seq 0 (ny * nx))))%nat.
      + assert (Hall : forall k, k ∈ seq 0 (ny * nx) -> (k < ny * nx)%nat) by (intros k ?%elem_of_seq; lia).
        clear IH. induction (seq 0 (ny * nx)) as [|k l IHl]; [done|]. cbn [map]. simpl list_sum.
        rewrite IHl by (intros; apply Hall; by right). clear IHl. rewrite filter_cons.
        pose proof (in_square_number lx ly nx ny k p (Hall k ltac:(left)) Hp) as Hiff.
        destruct (decide (in_square _ _ _ _ _)) as [Hin|Hin].
        * rewrite decide_True by (by apply Hiff). simpl. lia.
        * rewrite decide_False by (by rewrite <- Hiff). lia.
      + rewrite IH. rewrite (list_sum_indicator (ny * nx)); [done| |done].
        pose proof (cell_number_range lx ly s nx ny _ Hs Hp). lia.
  Qed.
  Lemma slots_count (g : grid T) a lx ly nx ny ct :
    g_tiles g = Some a -> slots lx ly nx ny (nflat a) ct ->
    Forall (in_rect lx ly s nx ny) (map xy_of (all_points ct)) ->
    g_points_count O g = length (all_points ct).
  Proof using L Hs.
    intros Ha Hsl Hrect. unfold g_points_count, live_tiles. rewrite Ha.
    rewrite (slots_points_sum lx ly nx ny (nflat a) ct Hsl 0 (nflat a)); [|lia|done].
    rewrite Nat.sub_0_r. by apply cells_partition.
  Qed.

  (** ** Building the base grid *)
  Context (Hgrow : m_can_grow m0 = true) (Hox : m_origin_x m0 = 0) (Hoy : m_origin_y m0 = 0).

  Lemma mult_range lo hi : 0 < s -> lo mod s = 0 -> hi mod s = 0 -> lo < hi ->
    exists n, (0 < n)%nat /\ hi = lo + Z.of_nat n * s.
  Proof.
    clear. intros Hs Hlo Hhi Hlt. exists (Z.to_nat ((hi - lo) / s)).
    pose proof (Z.div_mod lo s ltac:(lia)). pose proof (Z.div_mod hi s ltac:(lia)).
    assert (hi - lo = (hi / s - lo / s) * s) as Heq by lia. rewrite Heq. rewrite Z.div_mul by lia. nia.
  Qed.

  Lemma in_rect_mono lx ly nx ny lx' ly' nx' ny' p :
    lx' <= lx -> ly' <= ly -> lx + Z.of_nat nx * s <= lx' + Z.of_nat nx' * s -> ly + Z.of_nat ny * s <= ly' + Z.of_nat ny' * s ->
    in_rect lx ly s nx ny p -> in_rect lx' ly' s nx' ny' p.
  Proof. unfold in_rect. lia. Qed.

  Lemma adjust_ext_spec m x :
    meta_frame m0 m -> x0 x <= x1 x -> y0 x <= y1 x ->
    exists lx ly nx ny, (0 < nx)%nat /\ (0 < ny)%nat /\ lx mod s = 0 /\ ly mod s = 0 /\
      adjust_extents m x = Ext lx ly (lx + Z.of_nat nx * s) (ly + Z.of_nat ny * s) /\
      lx <= x0 x /\ ly <= y0 x /\ x1 x < lx + Z.of_nat nx * s /\ y1 x < ly + Z.of_nat ny * s /\
      x0 x < lx + s /\ y0 x < ly + s /\ lx + Z.of_nat nx * s <= x1 x + s /\ ly + Z.of_nat ny * s <= y1 x + s.
  Proof using Hgrow Hox Hoy Hs.
    intros [Hsz _ _ _ Hg Hx Hy _] Hxx Hyy. unfold adjust_extents. rewrite Hg, Hx, Hy, Hsz, Hgrow, Hox, Hoy.
    destruct (adjust_lo_spec (x0 x) s Hs) as (A1 & A2 & A3), (adjust_lo_spec (y0 x) s Hs) as (B1 & B2 & B3).
    destruct (adjust_hi_spec (x1 x) s Hs) as (C1 & C2 & C3), (adjust_hi_spec (y1 x) s Hs) as (D1 & D2 & D3).
    destruct (mult_range (adjust_lo (x0 x) 0 s) (adjust_hi (x1 x) 0 s)) as (nx & Hnx & Ex); [done..|lia|].
    destruct (mult_range (adjust_lo (y0 x) 0 s) (adjust_hi (y1 x) 0 s)) as (ny & Hny & Ey); [done..|lia|].
    eexists _, _, nx, ny. split; [done|]. split; [done|]. split; [exact A2|]. split; [exact B2|].
    rewrite <- Ex, <- Ey. split; [done|]. lia.
  Qed.

  (** What build_grid leaves: extents, arrays and mask. *)
  Definition built (g : grid T) (k : option (nd bool)) (lx ly : Z) (nx ny : nat) : grid T :=
    g <| g_mask := k |> <| g_geom := Some (std_geom lx ly s nx ny) |>
      <| g_meta := g_meta g <| m_ext := Some (Ext lx ly (lx + Z.of_nat nx * s) (ly + Z.of_nat ny * s)) |>
                            <| m_width := Some (Z.of_nat nx * s) |> <| m_height := Some (Z.of_nat ny * s) |>
                            <| m_max_tiles := Some (ny * nx)%nat |> |>.

  Lemma build_grid_adjusted (g : grid T) x lx ly nx ny :
    meta_frame m0 (g_meta g) -> (0 < nx)%nat -> (0 < ny)%nat ->
    adjust_extents (g_meta g) x = Ext lx ly (lx + Z.of_nat nx * s) (ly + Z.of_nat ny * s) ->
    forall k, (if negb (g_is_empty g) && m_can_grow (g_meta g)
               then let* k := existing_mask g (uniform lx s nx) (uniform ly s ny) in Ok (Some k) else Ok (g_mask g)) = Ok k ->
    build_grid g x = (built g k lx ly nx ny, None).
  Proof using L Hs.
    intros Hm Hnx Hny Hadj k Hk. unfold build_grid. rewrite Hadj. cbn [x0 x1 y0 y1]. rewrite (mf_size _ _ Hm).
    rewrite !arange_exact by done. rewrite Hk. rewrite !with_last_edge_uniform by done.
    rewrite !uniform_length. unfold built, std_geom. do 2 f_equal.
    replace (lx + Z.of_nat nx * s - lx) with (Z.of_nat nx * s) by lia.
    replace (ly + Z.of_nat ny * s - ly) with (Z.of_nat ny * s) by lia. done.
  Qed.

  (** The mask of the present tiles inside the new arrays. *)
  Lemma existing_mask_spec (g : grid T) lx ly nx ny lx' ly' nx' ny' r0 c0 :
    g_geom g = Some (std_geom lx ly s nx ny) -> (0 < nx)%nat -> (0 < ny)%nat ->
    lx = lx' + Z.of_nat c0 * s -> ly = ly' + Z.of_nat r0 * s -> (c0 + nx <= nx')%nat -> (r0 + ny <= ny')%nat ->
    exists k, existing_mask g (uniform lx' s nx') (uniform ly' s ny') = Ok k /\
      nrows k = ny' /\ ncols k = nx' /\ length (nflat k) = (ny' * nx')%nat /\
      (forall r c, (r < ny')%nat -> (c < nx')%nat ->
         nflat k !! (r * nx' + c)%nat = Some (bool_decide (r0 <= r < r0 + ny)%nat && bool_decide (c0 <= c < c0 + nx)%nat)).
  Proof using L Hs.
    intros Hg Hnx Hny Hlx Hly Hcx Hry. unfold existing_mask, old_corner. rewrite Hg. cbn [rofopt rbind].
    assert (E1 : nd_get (gy (std_geom lx ly s nx ny)) 0 0 = Some ly).
    { unfold nd_get. change (nrows (gy (std_geom lx ly s nx ny))) with (length (uniform ly s ny)).
      change (ncols (gy (std_geom lx ly s nx ny))) with (length (uniform lx s nx)). rewrite !uniform_length.
      pose proof (std_geom_y lx ly s nx ny 0 0 Hny Hnx) as H. rewrite !bool_decide_eq_true_2 by lia. cbn [andb]. rewrite H. f_equal. lia. }
    assert (E2 : nd_get (gx (std_geom lx ly s nx ny)) 0 0 = Some lx).
    { unfold nd_get. change (nrows (gx (std_geom lx ly s nx ny))) with (length (uniform ly s ny)).
      change (ncols (gx (std_geom lx ly s nx ny))) with (length (uniform lx s nx)). rewrite !uniform_length.
      pose proof (std_geom_x lx ly s nx ny 0 0 Hny Hnx) as H. rewrite !bool_decide_eq_true_2 by lia. cbn [andb]. rewrite H. f_equal. lia. }
    rewrite E1, E2. cbn [rofopt rbind]. rewrite Hly, Hlx. rewrite !index_of_uniform by (done || lia). cbn [rofopt rbind].
    eexists. split; [reflexivity|]. cbn [fst snd]. rewrite !uniform_length.
    assert (Er : nrows (gx (std_geom (lx' + Z.of_nat c0 * s) (ly' + Z.of_nat r0 * s) s nx ny)) = ny) by (simpl; apply uniform_length).
    assert (Ec : ncols (gx (std_geom (lx' + Z.of_nat c0 * s) (ly' + Z.of_nat r0 * s) s nx ny)) = nx) by (simpl; apply uniform_length).
    rewrite Er, Ec. unfold nd_fill. cbn [nrows ncols nd_full]. split; [done|]. split; [done|]. split; [apply nd_init_wf|].
    intros r c Hr Hc. rewrite nd_init_flat by (by apply flat_lt). rewrite flat_div, flat_mod by done.
    rewrite (nd_get_full ny' nx' false r c Hr Hc). cbn [default]. f_equal.
    replace (Nat.min (r0 + ny) ny') with (r0 + ny)%nat by lia. replace (Nat.min (c0 + nx) nx') with (c0 + nx)%nat by lia.
    by destruct (bool_decide (r0 <= r < r0 + ny)%nat), (bool_decide (c0 <= c < c0 + nx)%nat).
  Qed.

  (** Moving the present tiles to their place in the larger array keeps the slots. *)
  Lemma slots_grow lx ly nx ny lx' ly' nx' ny' r0 c0 (fl fl' : list (option T)) ct :
    slots lx ly nx ny fl ct -> Forall (in_rect lx ly s nx ny) (map xy_of (all_points ct)) ->
    lx = lx' + Z.of_nat c0 * s -> ly = ly' + Z.of_nat r0 * s ->
    length fl' = (ny' * nx')%nat ->
    (forall r c, (r < ny)%nat -> (c < nx)%nat -> fl' !! ((r0 + r) * nx' + (c0 + c))%nat = fl !! (r * nx + c)%nat) ->
    (forall r c, (r < ny')%nat -> (c < nx')%nat -> ~ (r0 <= r < r0 + ny /\ c0 <= c < c0 + nx)%nat ->
       fl' !! (r * nx' + c)%nat = Some None) ->
    slots lx' ly' nx' ny' fl' ct.
  Proof using L Hs.
    intros [Hl Hsl] Hrect Hlx Hly Hl' Hin Hout. split; [done|]. intros r c Hr Hc.
    destruct (decide (r0 <= r < r0 + ny /\ c0 <= c < c0 + nx)%nat) as [Hd|Hd].
    - destruct (Hsl (r - r0)%nat (c - c0)%nat) as (o & Ho & Hslot); [lia|lia|].
      exists o. split.
      + rewrite <- Ho. rewrite <- Hin by lia. f_equal. f_equal; [f_equal; lia|lia].
      + replace (lx' + Z.of_nat c * s) with (lx + Z.of_nat (c - c0) * s) by nia.
        replace (ly' + Z.of_nat r * s) with (ly + Z.of_nat (r - r0) * s) by nia. done.
    - exists None. split; [by apply Hout|]. simpl. apply content_in_empty. apply Forall_forall. intros p Hp Hsq.
      rewrite Forall_forall in Hrect. specialize (Hrect (xy_of p) (elem_of_list_fmap_1 xy_of _ _ Hp)).
      unfold in_rect, xy_of in Hrect. simpl in Hrect. unfold in_square in Hsq. apply Hd. nia.
  Qed.
End place.
