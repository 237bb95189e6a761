(** Histories of grids: where the points are. *)
From Verif Require Import Py Nd Numpy Point Bin Algorithms Tile Time Meta Disk Grid GridRun GridQuery GridOps Spec TileExec GridExec.
From Verif Require Import PyFacts NdFacts NumpyFacts AlgFacts BinFacts TileFacts TileGridFacts TileRunFacts TileHistFacts.
From Verif Require Import GridBaseFacts GridPlaceFacts GridInvFacts GridRootFacts GridEvolveFacts GridSrFacts GridPropFacts.
Open Scope Z_scope.

Notation here x y s := (fun p : point => in_square x y s (px p) (py p)).

Lemma rep_data t ct : tile_rep t ct -> ct <> [] -> t_data t = Some (all_points ct).
Proof.
  intros HR Hne. destruct (t_data t) as [d|] eqn:E.
  - rewrite <- (tr_data _ _ HR). unfold pts. by rewrite E.
  - by apply (tr_none _ _ HR) in E.
Qed.
Lemma content_in_points_ne x y s ct : content_in x y s ct <> [] -> filter (here x y s) (all_points ct) <> [].
Proof.
  intros H. rewrite <- content_in_points. rewrite all_points_nil_iff; [done|]. apply content_in_nonempty.
Qed.

Section sr.
  Context (e : env) (size : Z) (backscatter zarr disk : bool) (Hsize : 0 < size).
  Notation m0 := (new_sr_meta 0 0 size backscatter zarr).
  Notation rep := (sr_rep size backscatter).
  Notation hist := (sr_history e size backscatter zarr disk).

  Lemma sr_inv g ct seen ok : hist g ct seen ok -> root_inv m0 rep g ct seen ok.
  Proof using Hsize. by apply sr_history_inv. Qed.

  Lemma sr_location g ct seen ok k x y :
    hist g ct seen ok -> origin_at g k = Some (x, y) ->
    let l := filter (here x y size) (all_points ct) in
    match tile_at g k with Some t => t_data t = Some l /\ l <> [] | None => l = [] end.
  Proof using Hsize.
    intros H%sr_inv Ho l. pose proof (root_loc m0 rep _ _ _ _ _ _ _ H Ho) as Hs. cbn [m_tile_size new_sr_meta new_meta] in Hs.
    destruct (tile_at g k) as [t|]; cbn in Hs.
    - destruct Hs as (Hne & Hsq & Hr & _). split; [|by apply content_in_points_ne].
      rewrite (rep_data _ _ Hr Hne). by rewrite content_in_points.
    - subst l. rewrite <- content_in_points, Hs. done.
  Qed.
  Lemma sr_tile_place g ct seen ok k t :
    hist g ct seen ok -> tile_at g k = Some t ->
    origin_at g k = Some (t_min_x t, t_min_y t) /\ t_size t = size /\ t_backscatter t = backscatter.
  Proof using Hsize.
    intros H%sr_inv Ht. destruct (root_origin m0 rep _ _ _ _ _ _ H Ht) as (x & y & Ho).
    pose proof (root_loc m0 rep _ _ _ _ _ _ _ H Ho) as Hs. rewrite Ht in Hs. destruct Hs as (_ & (H1 & H2 & H3 & H4) & _).
    subst. done.
  Qed.
End sr.

Section vr.
  Context (e : env) (size sub : Z) (backscatter zarr disk : bool) (Hsize : 0 < size) (Hsub : 0 < sub).
  Notation m0 := (new_vr_meta 0 0 size sub backscatter zarr).
  Notation rep := (vr_rep size sub backscatter zarr).
  Notation hist := (vr_history e size sub backscatter zarr disk).
  Notation both x y u v := (fun p : point => in_square x y size (px p) (py p) /\ in_square u v sub (px p) (py p)).

  Lemma vr_inv g ct seen ok : hist g ct seen ok -> root_inv m0 rep g ct seen ok.
  Proof using Hsize Hsub. by apply vr_history_inv. Qed.

  (** Inside a sub-grid. *)
  Lemma child_placed x y sg ct :
    rep sg x y ct -> ct <> [] ->
    exists a, placed (sub0 size sub backscatter zarr x y) (sr_rep sub false) sg ct x y
      (Z.to_nat (ceil_div size sub)) (Z.to_nat (ceil_div size sub)) a.
  Proof. intros [_ [(_ & -> & _)|(_ & a & P & _)]] Hne; [done|by exists a]. Qed.
  Lemma sub_location x y sg ct j u v :
    rep sg x y ct -> ct <> [] -> origin_at sg j = Some (u, v) ->
    slot_ok (sr_rep sub false) u v (content_in u v sub ct) (tile_at sg j).
  Proof. intros H Hne Ho. destruct (child_placed _ _ _ _ H Hne) as [a P]. exact (placed_loc _ _ _ _ _ _ _ _ _ _ _ _ P Ho). Qed.

  Lemma filter_both x y u v (l : list point) :
    filter (here u v sub) (filter (here x y size) l) = filter (both x y u v) l.
  Proof.
    rewrite list_filter_filter. apply list_filter_iff. intros p. tauto.
  Qed.

  Lemma vr_location g ct seen ok x y sg j u v :
    hist g ct seen ok -> has_tile g x y sg -> origin_at sg j = Some (u, v) ->
    let l := filter (both x y u v) (all_points ct) in
    match tile_at sg j with Some t => t_data t = Some l /\ l <> [] | None => l = [] end.
  Proof using Hsize Hsub.
    intros H%vr_inv Hg Ho l. destruct (root_has m0 rep _ _ _ _ _ _ _ H Hg) as [Hne Hr].
    pose proof (sub_location _ _ _ _ _ _ _ Hr Hne Ho) as Hs. cbn [m_tile_size new_vr_meta new_meta] in *.
    assert (El : all_points (content_in u v sub (content_in x y size ct)) = l) by (by rewrite !content_in_points, filter_both).
    destruct (tile_at sg j) as [t|]; cbn in Hs.
    - destruct Hs as (Hn2 & Hsq & Hr2 & _). rewrite (rep_data _ _ Hr2 Hn2), El. split; [done|].
      rewrite <- El. rewrite all_points_nil_iff; [done|]. apply content_in_nonempty.
    - rewrite <- El, Hs. done.
  Qed.
  Lemma vr_empty_location g ct seen ok k x y :
    hist g ct seen ok -> origin_at g k = Some (x, y) ->
    (tile_at g k = None <-> filter (here x y size) (all_points ct) = []).
  Proof using Hsize Hsub.
    intros H%vr_inv Ho. pose proof (root_loc m0 rep _ _ _ _ _ _ _ H Ho) as Hs. cbn [m_tile_size new_vr_meta new_meta] in Hs.
    destruct (tile_at g k) as [sg|]; cbn in Hs.
    - destruct Hs as [Hne _]. split; [done|]. intros Hz. by apply content_in_points_ne in Hne.
    - split; [|done]. intros _. by rewrite <- content_in_points, Hs.
  Qed.
  Lemma vr_sub_place g ct seen ok x y sg :
    hist g ct seen ok -> has_tile g x y sg ->
    m_ext (g_meta sg) = Some (Ext x y (x + size) (y + size)) /\ m_tile_size (g_meta sg) = sub /\
    m_name (g_meta sg) = NTile x y.
  Proof using Hsize Hsub.
    intros H%vr_inv Hg. destruct (root_has m0 rep _ _ _ _ _ _ _ H Hg) as [Hne [[B1 B2 _ _ _ _ _ _] _]].
    split; [done|]. split; [by rewrite (mf_size _ _ B1)|by rewrite (mf_name _ _ B1)].
  Qed.
  Lemma vr_subtile_place g ct seen ok x y sg j t :
    hist g ct seen ok -> has_tile g x y sg -> tile_at sg j = Some t ->
    origin_at sg j = Some (t_min_x t, t_min_y t) /\ t_size t = sub.
  Proof using Hsize Hsub.
    intros H%vr_inv Hg Ht. destruct (root_has m0 rep _ _ _ _ _ _ _ H Hg) as [Hne Hr].
    destruct (child_placed _ _ _ _ Hr Hne) as [a P]. destruct (placed_origin _ _ _ _ _ _ _ _ _ _ _ P Ht) as (u & v & Ho).
    pose proof (sub_location _ _ _ _ _ _ _ Hr Hne Ho) as Hs. rewrite Ht in Hs. destruct Hs as (_ & (H1 & H2 & H3 & H4) & _).
    subst. done.
  Qed.
  Lemma vr_cover g ct seen ok p :
    hist g ct seen ok -> p ∈ all_points ct ->
    exists k x y sg j u v t,
      origin_at g k = Some (x, y) /\ tile_at g k = Some sg /\ origin_at sg j = Some (u, v) /\ tile_at sg j = Some t /\
      in_square x y size (px p) (py p) /\ in_square u v sub (px p) (py p) /\
      (forall k' x' y', origin_at g k' = Some (x', y') -> in_square x' y' size (px p) (py p) -> k' = k) /\
      (forall j' u' v', origin_at sg j' = Some (u', v') -> in_square u' v' sub (px p) (py p) -> j' = j).
  Proof using Hsize Hsub.
    intros H Hp. pose proof (vr_inv _ _ _ _ H) as HI.
    destruct (root_cover m0 rep Hsize _ _ _ _ _ HI Hp) as (k & x & y & Ho & Hsq & Hu). cbn [m_tile_size new_vr_meta new_meta] in *.
    assert (Hin : p ∈ all_points (content_in x y size ct)).
    { rewrite content_in_points. apply elem_of_list_filter. done. }
    assert (Hne : content_in x y size ct <> []) by (intros E; rewrite E in Hin; by apply not_elem_of_nil in Hin).
    destruct (root_has_points m0 rep _ _ _ _ _ _ _ HI Ho Hne) as [sg Hsg].
    destruct (root_has m0 rep _ _ _ _ x y sg HI ltac:(by exists k)) as [_ Hr]. cbn [m_tile_size new_vr_meta new_meta] in *.
    destruct (child_placed _ _ _ _ Hr Hne) as [a P].
    destruct (placed_cover (sub0 size sub backscatter zarr x y) (sr_rep sub false) Hsub _ _ _ _ _ _ _ _ P Hin) as (j & u & v & Ho2 & Hsq2 & Hu2).
    pose proof (sub_location _ _ _ _ _ _ _ Hr Hne Ho2) as Hs.
    assert (Hin2 : p ∈ all_points (content_in u v sub (content_in x y size ct))).
    { rewrite content_in_points. apply elem_of_list_filter. done. }
    destruct (tile_at sg j) as [t|] eqn:Ht; cbn in Hs; [|rewrite Hs in Hin2; by apply not_elem_of_nil in Hin2].
    exists k, x, y, sg, j, u, v, t. done.
  Qed.
End vr.

(** ** Add, then remove *)
Section undo.
  Context {T : Type} (O : tile_ops T) (m0 : gmeta) (rep : T -> Z -> Z -> content -> Prop).
  Notation s := (m_tile_size m0).
  Context (L : tile_laws O m0 rep) (Hs : 0 < s).
  Context (Hgrow : m_can_grow m0 = true) (Hox : m_origin_x m0 = 0) (Hoy : m_origin_y m0 = 0).

  Lemma undo_inv g ct seen ok d args c :
    root_inv m0 rep g ct seen ok -> exn_of (g_add_points O g (GoodData d) args) = None -> c = a_container args ->
    let g1 := st_of (g_add_points O g (GoodData d) args) in
    exn_of (g_remove_points O g1 c) = None ->
    let g2 := st_of (g_remove_points O g1 c) in
    (exists seen' ok', root_inv m0 rep g2 ct seen' ok') /\
    dkeys (m_container (g_meta g2)) = dkeys (m_container (g_meta g)).
  Proof using L Hs Hgrow Hox Hoy.
    intros HI Hx -> g1 Hx2 g2.
    destruct (root_add O m0 rep L Hs Hgrow Hox Hoy g ct seen ok (GoodData d) args HI) as [(H1 & _)|(d' & m1 & [= <-] & Hd & Hf & Hu & _ & HI1 & Hc & _)]; [done|].
    fold g1 in HI1, Hc.
    destruct (root_remove O m0 rep L Hs g1 _ _ _ (a_container args) HI1) as [_ HR]. destruct (HR Hx2) as (HI2 & Hk & _).
    fold g2 in HI2, Hk.
    assert (Hct : a_container args ∉ ct.*1) by (intros Hin; apply Hf; by apply (rb_keys _ _ _ (proj1 HI))).
    assert (Hdrop : drop_c (ct ++ [(a_container args, d)]) (a_container args) = ct).
    { unfold drop_c. rewrite filter_app. rewrite filter_cons, decide_False by (cbn; tauto). cbn. rewrite app_nil_r.
      change (drop_c ct (a_container args) = ct). by apply drop_c_notin. }
    split.
    - rewrite Hdrop in HI2. by eexists _, _.
    - rewrite Hk, Hc. pose proof (update_metadata_spec _ _ _ _ Hu) as (_ & _ & _ & _ & _ & _ & _ & _ & _ & _ & _ & Hcc & _).
      rewrite Hcc, dset_new by done. unfold dkeys at 1. rewrite fmap_app, filter_app. cbn [fmap list_fmap fst]. rewrite filter_cons, decide_False by tauto.
      rewrite filter_nil. rewrite app_nil_r. fold (dkeys (m_container (g_meta g))). clear -Hf.
      induction (dkeys (m_container (g_meta g))) as [|k l IH]; [done|]. rewrite elem_of_cons in Hf.
      rewrite filter_cons, decide_True by (intros ->; tauto). by rewrite IH by tauto.
  Qed.
End undo.

Lemma same_multiple s a b p x y : 0 < s -> x = a * s -> y = b * s -> x <= p < x + s -> y <= p < y + s -> x = y.
Proof. intros Hs -> -> H1 H2. assert (a = b) by nia. by subst. Qed.

(** Grids that hold the same have tiles at the same places. *)
Lemma same_places {T} m0 rep (g g' : grid T) ct seen ok seen' ok' :
  0 < m_tile_size m0 -> root_inv m0 rep g ct seen ok -> root_inv m0 rep g' ct seen' ok' ->
  forall x y t, has_tile g x y t -> exists t', has_tile g' x y t'.
Proof.
  intros Hs HI HI' x y t Ht. destruct (root_has _ _ _ _ _ _ _ _ _ HI Ht) as (Hne & _).
  assert (Hp : exists p, p ∈ all_points (content_in x y (m_tile_size m0) ct)).
  { destruct (all_points (content_in x y (m_tile_size m0) ct)) as [|p l] eqn:E; [|exists p; left].
    apply all_points_nil_iff in E; [done|]. apply content_in_nonempty. }
  destruct Hp as [p Hp]. rewrite content_in_points in Hp. apply elem_of_list_filter in Hp as [Hpi Hpa].
  destruct (root_cover m0 _ Hs _ _ _ _ _ HI' Hpa) as (k' & x' & y' & Ho' & Hsq' & _).
  destruct Ht as (k & Ho & Ht).
  assert (x' = x /\ y' = y) as [-> ->].
  { destruct HI as [_ [(_ & -> & _)|(_ & lx & ly & nx & ny & a & P & (F1 & F2 & _) & _)]]; [by apply not_elem_of_nil in Hpa|].
    destruct HI' as [_ [(_ & -> & _)|(_ & lx' & ly' & nx' & ny' & a' & P' & (F1' & F2' & _) & _)]]; [by apply not_elem_of_nil in Hpa|].
    pose proof (std_origin_bound m0 _ _ _ _ _ _ _ (pl_geom _ _ _ _ _ _ _ _ _ P) Ho) as Hk.
    pose proof (std_origin_bound m0 _ _ _ _ _ _ _ (pl_geom _ _ _ _ _ _ _ _ _ P') Ho') as Hk'.
    rewrite (std_origin m0 _ _ _ _ _ _ (pl_geom _ _ _ _ _ _ _ _ _ P) Hk) in Ho.
    rewrite (std_origin m0 _ _ _ _ _ _ (pl_geom _ _ _ _ _ _ _ _ _ P') Hk') in Ho'.
    injection Ho as Ex Ey. injection Ho' as Ex' Ey'. unfold in_square in *.
    apply Z.mod_divide in F1, F2, F1', F2'; try lia. destruct F1 as [a1 F1], F2 as [a2 F2], F1' as [b1 F1'], F2' as [b2 F2'].
    split; [apply (same_multiple (m_tile_size m0) (b1 + Z.of_nat (k' mod nx')) (a1 + Z.of_nat (k mod nx)) (px p))|
            apply (same_multiple (m_tile_size m0) (b2 + Z.of_nat (k' / nx')) (a2 + Z.of_nat (k / nx)) (py p))]; lia. }
  destruct (root_has_points _ _ _ _ _ _ _ _ _ HI' Ho' Hne) as [t' Ht']. by exists t', k'.
Qed.
Lemma sr_same_soundings size b m0 (g g' : sr_grid) ct seen ok seen' ok' :
  0 < m_tile_size m0 -> root_inv m0 (sr_rep size b) g ct seen ok -> root_inv m0 (sr_rep size b) g' ct seen' ok' ->
  forall x y d, (exists t, has_tile g x y t /\ t_data t = Some d) -> exists t, has_tile g' x y t /\ t_data t = Some d.
Proof.
  intros Hs HI HI' x y d (t & Ht & Hd). destruct (same_places _ _ _ _ _ _ _ _ _ Hs HI HI' _ _ _ Ht) as [t' Ht'].
  exists t'. split; [done|]. destruct (root_has _ _ _ _ _ _ _ _ _ HI Ht) as (Hne & _ & Hr & _).
  destruct (root_has _ _ _ _ _ _ _ _ _ HI' Ht') as (_ & _ & Hr' & _).
  rewrite (rep_data _ _ Hr' Hne). rewrite <- Hd, (rep_data _ _ Hr Hne). done.
Qed.
Lemma vr_same_soundings size sub b zarr (g g' : vr_grid) ct seen ok seen' ok' :
  let m0 := new_vr_meta 0 0 size sub b zarr in
  0 < size -> 0 < sub -> root_inv m0 (vr_rep size sub b zarr) g ct seen ok -> root_inv m0 (vr_rep size sub b zarr) g' ct seen' ok' ->
  forall x y u v d, (exists sg t, has_tile g x y sg /\ has_tile sg u v t /\ t_data t = Some d) ->
    exists sg t, has_tile g' x y sg /\ has_tile sg u v t /\ t_data t = Some d.
Proof.
  intros m0 Hs Hsub HI HI' x y u v d (sg & t & Hg & Ht & Hd).
  destruct (same_places m0 _ _ _ _ _ _ _ _ Hs HI HI' _ _ _ Hg) as [sg' Hg'].
  destruct (root_has _ _ _ _ _ _ _ _ _ HI Hg) as (Hne & Hr). destruct (root_has _ _ _ _ _ _ _ _ _ HI' Hg') as (_ & Hr').
  destruct Ht as (j & Ho & Ht).
  destruct (child_placed _ _ _ _ _ _ _ _ Hr Hne) as [a P]. destruct (child_placed _ _ _ _ _ _ _ _ Hr' Hne) as [a' P'].
  assert (Ho' : origin_at sg' j = Some (u, v)).
  { unfold origin_at in *. rewrite (pl_geom _ _ _ _ _ _ _ _ _ P) in Ho. by rewrite (pl_geom _ _ _ _ _ _ _ _ _ P'). }
  pose proof (sub_location _ _ _ _ _ _ _ _ _ _ _ Hr Hne Ho) as Hl. pose proof (sub_location _ _ _ _ _ _ _ _ _ _ _ Hr' Hne Ho') as Hl'.
  rewrite Ht in Hl. destruct Hl as (Hn2 & _ & R2 & _).
  destruct (tile_at sg' j) as [t'|] eqn:Ht'; [|done]. destruct Hl' as (_ & _ & R2' & _).
  exists sg', t'. split; [done|]. split; [by exists j|]. rewrite (rep_data _ _ R2' Hn2), <- (rep_data _ _ R2 Hn2). done.
Qed.
