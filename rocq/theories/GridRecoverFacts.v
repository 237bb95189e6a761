(** Gridding with clear_existing after any calls (C95). *)
From Coq Require Import Lqa.
From Verif Require Import Py Nd Numpy Point Bin Algorithms Tile TileFail Time Meta Disk Grid GridRun GridQuery GridOps Spec TileExec GridExec PyFacts NdFacts NumpyFacts AlgFacts BinFacts
  MiscFacts TileFacts TileGridFacts TileSpecFacts TileRunFacts TileHistFacts ShoalFacts TilePropFacts TileQueryFacts GridBaseFacts GridPlaceFacts GridInvFacts GridRootFacts
  GridEvolveFacts GridSrFacts GridPropFacts GridHistFacts GridRunFacts GridCleanFacts GridUpdateFacts GridDensityFacts GridFlagFacts GridLayerFacts GridReadFacts GridAnswerFacts WholeSpec GridWholeFacts TileSoundFacts.
Open Scope Z_scope.

Section rep.
  Context (e : env) (size : Z) (b : bool) (Hsize : 0 < size).
  Definition sound_rep (t : tile) (x y : Z) (ct : content) : Prop := sr_rep size b t x y ct /\ sound t.

  Lemma square_in t x y p : at_square t x y size b -> in_square x y size (px p) (py p) -> in_tile t p.
  Proof using. intros (Q1 & Q2 & Q3 & _). unfold in_tile. by rewrite Q1, Q2, Q3. Qed.
  Lemma sound_laws m0 : m_tile_size m0 = size -> m_backscatter m0 = b -> tile_laws sr_ops m0 sound_rep.
  Proof using Hsize.
    intros E1 E2. pose proof (sr_laws m0) as L. rewrite E1, E2 in L. split.
    - intros m disk x y F. split; [by apply (tl_build _ _ _ L)|]. cbn. apply sound_new. by rewrite (mf_size _ _ F), E1.
    - intros t x y ct d a (H1 & H2) Hd Hin Hc Hn. destruct (tl_add _ _ _ L t x y ct d a H1 Hd Hin Hc Hn) as [L1 L2].
      split; [done|]. split; [done|]. cbn. apply sound_add; [done|]. rewrite E1 in Hin. eapply Forall_impl; [exact Hin|]. cbv beta. intros p. eapply square_in, H1.
    - intros t x y ct c (H1 & H2). destruct (tl_remove _ _ _ L t x y ct c H1) as [L1 L2]. split; [done|]. split; [done|]. cbn. by apply sound_remove.
    - intros t x y ct (H1 & _). by apply (tl_empty _ _ _ L t x y).
    - intros t x y ct (H1 & _). by apply (tl_count _ _ _ L t x y).
    - intros md t x y ct (H1 & H2). split; [by apply (tl_reload _ _ _ L)|by apply sound_reload].
  Qed.

  Definition keeps_sound (t t' : tile) : Prop := tile_keeps t t' /\ (sound t -> sound t').
  Lemma keeps_sound_refl t : keeps_sound t t.
  Proof using. split; [apply tile_keeps_refl|done]. Qed.
  Lemma keeps_sound_trans t u v : keeps_sound t u -> keeps_sound u v -> keeps_sound t v.
  Proof using. intros [A1 A2] [B1 B2]. split; [by eapply tile_keeps_trans|auto]. Qed.
  Lemma sound_rep_keeps t t' x y ct : keeps_sound t t' -> sound_rep t x y ct -> sound_rep t' x y ct.
  Proof using. intros [K1 K2] [R1 R2]. split; [by eapply sr_rep_keeps|auto]. Qed.
  Lemma keeps_sound_grid t a : keeps_sound t (st_of (op_grid sr_ops e t a).1).
  Proof using.
    split; [apply sr_grid_keeps|]. cbn. intros HS. destruct (t_grid _ _ _ _ _ _ _ _) as [[t' r]|] eqn:E; cbn; [by eapply grid_sound|by apply left_sound].
  Qed.
  Lemma keeps_sound_reload m t : keeps_sound t (t_reload m t).
  Proof using. split; [apply sr_reload_keeps|apply sound_reload]. Qed.
  Lemma keeps_sound_query t l r n u t' o : op_get_layer sr_ops e t l r n u = Ok (t', o) -> keeps_sound t t'.
  Proof using. cbn. intros H. split; [by eapply t_query_keeps|by eapply sound_query]. Qed.
End rep.

(** ** Single resolution grids *)
Section sr.
  Context (e : env) (size : Z) (b zarr disk : bool) (Hsize : 0 < size).
  Notation m0 := (new_sr_meta 0 0 size b zarr).
  Notation rep := (sound_rep size b).
  Lemma sr_sound_inv g ct seen ok : sr_history e size b zarr disk g ct seen ok -> root_inv m0 rep g ct seen ok.
  Proof using Hsize.
    pose proof (sound_laws size b Hsize m0 eq_refl eq_refl) as L.
    induction 1 as [|g ct seen ok d a H IH Hx|g ct seen ok inp a H IH Hx|g ct seen ok c H IH Hx Hne|g ct seen ok c H IH Hx Hne|g ct seen ok a dask H IH|g ct seen ok layers rez nodata up g' o H IH Hq].
    - by apply root_new.
    - destruct (root_add sr_ops m0 rep L Hsize eq_refl eq_refl eq_refl g ct seen ok (GoodData d) a IH) as [(H1 & _)|(d' & m1 & [= <-] & _ & _ & _ & _ & H2 & _)]; [done|exact H2].
    - destruct (root_add sr_ops m0 rep L Hsize eq_refl eq_refl eq_refl g ct seen ok inp a IH) as [(H1 & H2 & _)|(d' & m1 & _ & _ & _ & _ & H1 & _)]; done.
    - destruct (root_remove sr_ops m0 rep L Hsize g ct seen ok c IH) as [_ H2]. destruct (H2 Hx) as [H3 _].
      rewrite bool_decide_eq_false_2 in H3 by done. done.
    - destruct (root_remove sr_ops m0 rep L Hsize g ct seen ok c IH) as [_ H2]. destruct (H2 Hx) as [H3 _].
      rewrite bool_decide_eq_true_2 in H3 by done. by rewrite Hne in H3.
    - eapply root_evolve; [apply sound_rep_keeps| |exact IH].
      apply evolve_grid; [apply keeps_sound_refl|apply keeps_sound_trans|apply keeps_sound_grid|apply keeps_sound_reload].
    - eapply root_evolve; [apply sound_rep_keeps| |exact IH].
      eapply evolve_query; [apply keeps_sound_refl|apply keeps_sound_trans|apply keeps_sound_query|done].
  Qed.
End sr.

Section tiles.
  Context (e : env) (size : Z) (b : bool) (Hsize : 0 < size).
  Context (sa : simple_algorithm) (r : Z) (Hp : is_power_of_two (metres e r) = true).
  Definition all_sound (g : sr_grid) : Prop :=
    forall k t, tile_at g k = Some t -> exists x y ct, sound_rep size b t x y ct /\ ct <> [].
  Lemma sound_data t x y ct : sound_rep size b t x y ct -> ct <> [] -> exists d, t_data t = Some d.
  Proof using. intros ((_ & HR & _) & _) Hne. destruct (t_data t) eqn:E; [by eexists|]. by apply (tr_none _ _ HR) in E. Qed.
  Lemma clear_skip a (g : sr_grid) k t : ga_clear a = true -> skip_tile sr_ops a (clear_at sr_ops a (ga_clear a) (tile_list g) k) t = false.
  Proof using. intros ->. unfold skip_tile, clear_at. cbn. by rewrite andb_false_r. Qed.
  Lemma next_clear_true {T} (O : tile_ops T) a : ga_clear a = true -> next_clear O a (ga_clear a) = true.
  Proof using. intros ->. unfold next_clear. by case_match. Qed.

  Lemma sound_grid_total (g : sr_grid) a dask : origins sr_ops g -> tiles_known dask g -> all_sound g -> g_is_empty g = false ->
    ga_alg a = alg_name sa -> ga_clear a = true -> ga_rez a = Some r -> exn_of (g_grid sr_ops e g a dask) = None.
  Proof using Hp.
    intros Ho Hcn HS He Ha Hc Hr.
    apply (grid_total sr_ops e tile_keeps tile_keeps_refl tile_keeps_trans (sr_grid_keeps e) sr_reload_keeps t_strip_keeps g a dask (Some r));
      [done|done|unfold mismatch; by rewrite Hc, andb_false_r|done|unfold call_rez; by rewrite Hr|].
    intros k t Ht. unfold entry_result, entry_at. cbn [en_k en_t en_run Nat.add]. rewrite (clear_skip a g k t Hc), (next_clear_true _ _ Hc).
    assert (Hb : borders sr_ops g a dask (Some r) k t = Ok None).
    { unfold borders, border_for. rewrite bool_decide_eq_false_2; [done|]. rewrite Ha. by destruct sa. }
    rewrite Hb. cbn [rbind]. destruct (HS k t Ht) as (x & y & ct & HR & Hne). destruct (sound_data _ _ _ _ HR Hne) as [d Hd].
    destruct (sound_total e t sa r (grid_auto a) (ga_params a) None d (proj2 HR) Hd Hp) as [t' Hg].
    cbn [sr_ops op_grid call_args ga_alg ga_rez ga_clear ga_mode ga_params ga_border].
    rewrite Ha, (tile_rez_given sr_ops (g_meta g) a r Hr), Hg. cbn. by eexists.
  Qed.
  Lemma sound_grid_current (g : sr_grid) a dask : origins sr_ops g -> all_sound g -> exn_of (g_grid sr_ops e g a dask) = None ->
    ga_alg a = alg_name sa -> ga_clear a = true -> ga_rez a = Some r ->
    forall k t', tile_at (st_of (g_grid sr_ops e g a dask)) k = Some t' -> current e sa r t'.
  Proof using Hsize.
    intros Ho HS Hx Ha Hc Hr k t' Ht'.
    destruct (tile_at g k) as [t|] eqn:Ht; [|by rewrite (gd_none _ _ _ _ _ _ (sr_finished e g a dask Ho Hx) k Ht) in Ht'].
    destruct (sr_done_tile e g a dask Ho Hx) as (rez & Hrez & HT). destruct (HT k t Ht) as (t2 & Ht2 & H).
    rewrite Ht2 in Ht'. injection Ht' as ->. cbv zeta in H. rewrite (clear_skip a g k t Hc) in H.
    destruct H as (bd & t1 & r1 & _ & _ & Hg & ->). rewrite (next_clear_true _ _ Hc), Ha in Hg.
    unfold call_rez in Hrez. rewrite Hr in Hrez. injection Hrez as <-.
    rewrite (tile_rez_given sr_ops (g_meta g) a r Hr) in Hg.
    destruct (HS k t Ht) as (x & y & ct & [HR HSt] & Hne).
    assert (r1 = r) as ->. { assert (K : known_alg (alg_name sa)) by (destruct sa; [by left|by right; left]). destruct (t_grid_inv _ _ _ _ _ _ _ _ _ _ K Hg) as (Hch & _). cbn in Hch. by injection Hch. }
    assert (C : current e sa r t1) by (eapply (sound_current e x y size b t); [done|apply HR|exact Hg]).
    destruct (g_disk g); [|done]. eapply current_keeps; [apply sr_reload_keeps|intros; by apply reload_plain|apply reload_run|intros C0; by apply reload_slopes, C0|done].
  Qed.
End tiles.

(** The call is made with one of the simple algorithms, the resolution [r] and clear_existing. *)
Definition clear_args (sa : simple_algorithm) (r : Z) (a : gargs) : Prop := ga_alg a = alg_name sa /\ ga_rez a = Some r /\ ga_clear a = true.

Lemma sr_recovers e sa r size b zarr disk g ct seen ok a dask :
  0 < size -> is_power_of_two (metres e r) = true -> sr_history e size b zarr disk g ct seen ok -> ct <> [] -> clear_args sa r a ->
  exn_of (g_grid sr_ops e g a dask) = None /\
  sr_reflects e (alg_name sa) r size b ct (st_of (g_grid sr_ops e g a dask)) /\
  exists lx ly nx ny, frame (st_of (g_grid sr_ops e g a dask)) size ct lx ly nx ny.
Proof.
  intros Hs Hp H Hne (Ha & Hr & Hc). pose proof (sr_sound_inv e size b zarr disk Hs g ct seen ok H) as HI.
  assert (Ho : origins sr_ops g) by (by eapply root_origins).
  assert (HS : all_sound size b g) by (intros k t Ht; by eapply root_rep).
  assert (Hx : exn_of (g_grid sr_ops e g a dask) = None).
  { apply (sound_grid_total e size b sa r Hp); try done; [by eapply root_tiles_known|].
    rewrite (root_is_empty (new_sr_meta 0 0 size b zarr) _ Hs _ _ _ _ HI). by apply bool_decide_eq_false_2. }
  split; [done|]. pose proof (GH_grid sr_ops e _ g ct seen ok a dask H) as H'. set (g' := st_of (g_grid sr_ops e g a dask)) in *.
  pose proof (sr_history_inv e size b zarr disk Hs g' ct seen ok H') as HI'. split.
  - intros k x y Hk here. pose proof (root_loc _ _ _ _ _ _ _ _ _ HI' Hk) as HL. cbn [m_tile_size new_sr_meta new_meta] in HL.
    assert (El : all_points (content_in x y size ct) = here) by apply content_in_points.
    destruct (tile_at g' k) as [t|] eqn:Ht; cbn in HL; [|by rewrite <- El, HL].
    destruct HL as (Hn2 & HR). pose proof HR as (_ & HT & _). rewrite (rep_data _ _ HT Hn2), El. split; [done|]. split.
    + subst here. by apply content_in_points_ne.
    + rewrite <- El. apply current_reflects; [done|done|]. by eapply (sound_grid_current e size b Hs sa r g a dask).
  - exact (root_frame (new_sr_meta 0 0 size b zarr) _ _ _ _ _ Hs HI' Hne).
Qed.

(** ** Variable resolution grids *)
Section vr.
  Context (e : env) (size sub : Z) (b zarr disk : bool) (Hsize : 0 < size) (Hsub : 0 < sub).
  Notation m0 := (new_vr_meta 0 0 size sub b zarr).
  Notation sub0 := (sub0 size sub b zarr).
  Notation srep := (sound_rep sub false).
  Definition subs_rep (g : grid tile) (x y : Z) (ct : content) : Prop := child_inv (sub0 x y) srep x y size g ct.
  Lemma subs_laws : tile_laws vr_ops m0 subs_rep.
  Proof using Hsize Hsub.
    assert (L : forall x y, tile_laws sr_ops (sub0 x y) srep) by (intros; by apply sound_laws). split.
    - intros m d x y F. cbn. rewrite (sub_meta_frame size sub b zarr _ _ _ F). unfold subs_rep. by apply child_new.
    - intros g x y ct d a H Hd Hin Hf Hn. cbn.
      destruct (child_add sr_ops (sub0 x y) srep (L x y) Hsub eq_refl x y size Hsize eq_refl g ct d a) as (H1 & H2 & _); done.
    - intros g x y ct c H. cbn. by apply (child_remove sr_ops (sub0 x y) srep).
    - intros g x y ct [B [(H1 & -> & _)|(H1 & a & H2 & _)]]; cbn.
      + unfold g_is_empty. by rewrite H1.
      + destruct H2 as [P1 P2 P3 P4 P5 P6 P7 P8].
        rewrite (slots_is_empty (sub0 x y) srep Hsub g ct _ _ _ _ a P4 P7 P8); [|apply B].
        apply bool_decide_ext. symmetry. apply all_points_nil_iff. apply B.
    - intros g x y ct [B [(H1 & -> & _)|(H1 & a & H2 & _)]]; cbn.
      + unfold g_points_count, live_tiles. by rewrite H1.
      + destruct H2 as [P1 P2 P3 P4 P5 P6 P7 P8].
        exact (slots_count sr_ops (sub0 x y) srep (L x y) Hsub g a _ _ _ _ ct P4 P7 P8).
    - done.
  Qed.
  Definition sub_sound : grid tile -> grid tile -> Prop := evolve keeps_sound.
  Lemma subs_rep_keeps t t' x y ct : sub_sound t t' -> subs_rep t x y ct -> subs_rep t' x y ct.
  Proof using. intros HK. apply child_evolve with (R := keeps_sound); [apply sound_rep_keeps|done]. Qed.
  Lemma sub_sound_refl g : sub_sound g g.
  Proof using. apply evolve_refl, keeps_sound_refl. Qed.
  Lemma sub_sound_trans g1 g2 g3 : sub_sound g1 g2 -> sub_sound g2 g3 -> sub_sound g1 g3.
  Proof using. apply evolve_trans, keeps_sound_trans. Qed.
  Lemma sub_sound_grid g a : sub_sound g (st_of (op_grid vr_ops e g a).1).
  Proof using. cbn. apply evolve_grid; [apply keeps_sound_refl|apply keeps_sound_trans|apply keeps_sound_grid|apply keeps_sound_reload]. Qed.
  Lemma sub_sound_query g l r n u g' o : op_get_layer vr_ops e g l r n u = Ok (g', o) -> sub_sound g g'.
  Proof using.
    cbn. unfold g_get_layer. intros ([g1 o1] & H1 & H)%rbind_Ok. cbn [fst snd] in H.
    assert (HK : sub_sound g g1) by (eapply evolve_query; [apply keeps_sound_refl|apply keeps_sound_trans|apply keeps_sound_query|exact H1]).
    destruct o1 as [l1|]; [|by injection H as <- _]. apply rbind_Ok in H as (a & _ & H). by injection H as <- _.
  Qed.
  Lemma vr_sound_inv g ct seen ok : vr_history e size sub b zarr disk g ct seen ok -> root_inv m0 subs_rep g ct seen ok.
  Proof using Hsize Hsub.
    induction 1 as [|g ct seen ok d a H IH Hx|g ct seen ok inp a H IH Hx|g ct seen ok c H IH Hx Hne|g ct seen ok c H IH Hx Hne|g ct seen ok a dask H IH|g ct seen ok layers rez nodata up g' o H IH Hq].
    - by apply root_new.
    - destruct (root_add vr_ops m0 subs_rep subs_laws Hsize eq_refl eq_refl eq_refl g ct seen ok (GoodData d) a IH) as [(H1 & _)|(d' & m1 & [= <-] & _ & _ & _ & _ & H2 & _)]; [done|exact H2].
    - destruct (root_add vr_ops m0 subs_rep subs_laws Hsize eq_refl eq_refl eq_refl g ct seen ok inp a IH) as [(H1 & H2 & _)|(d' & m1 & _ & _ & _ & _ & H1 & _)]; done.
    - destruct (root_remove vr_ops m0 subs_rep subs_laws Hsize g ct seen ok c IH) as [_ H2]. destruct (H2 Hx) as [H3 _].
      rewrite bool_decide_eq_false_2 in H3 by done. done.
    - destruct (root_remove vr_ops m0 subs_rep subs_laws Hsize g ct seen ok c IH) as [_ H2]. destruct (H2 Hx) as [H3 _].
      rewrite bool_decide_eq_true_2 in H3 by done. by rewrite Hne in H3.
    - eapply root_evolve; [apply subs_rep_keeps| |exact IH].
      apply evolve_grid; [apply sub_sound_refl|apply sub_sound_trans|apply sub_sound_grid|intros; apply sub_sound_refl].
    - eapply root_evolve; [apply subs_rep_keeps| |exact IH].
      eapply evolve_query; [apply sub_sound_refl|apply sub_sound_trans|apply sub_sound_query|done].
  Qed.
End vr.

Lemma vr_recovers e sa r size sub b zarr disk g ct seen ok a dask :
  0 < size -> 0 < sub -> is_power_of_two (metres e r) = true -> vr_history e size sub b zarr disk g ct seen ok -> ct <> [] -> clear_args sa r a ->
  exn_of (g_grid vr_ops e g a dask) = None /\ vr_reflects e (alg_name sa) r size sub ct (st_of (g_grid vr_ops e g a dask)).
Proof.
  intros Hs Hsub Hp H Hne (Ha & Hr & Hc). pose proof (vr_sound_inv e size sub b zarr disk Hs Hsub g ct seen ok H) as HI.
  assert (Hnest : forall rez bd, call_rez vr_ops e g a = Ok rez -> clear_args sa r (call_args vr_ops a (grid_auto a) rez (g_meta g) (ga_clear a) bd)).
  { intros rez bd Hrez. unfold call_rez in Hrez. rewrite Hr in Hrez. injection Hrez as <-. split; [done|]. split; [|done].
    unfold call_args. cbn [ga_rez]. by apply tile_rez_given. }
  assert (Hchild : forall k sg, tile_at g k = Some sg -> origins sr_ops sg /\ all_sound sub false sg /\ g_is_empty sg = false).
  { intros k sg Ht. destruct (root_rep _ _ _ _ _ _ _ _ HI Ht) as (x & y & ct' & HC & Hne'). split; [by eapply child_origins|]. split; [intros j t Hj; by eapply child_rep|].
    by rewrite (child_is_empty (sub0 size sub b zarr x y) _ _ _ _ _ _ Hsub HC), bool_decide_eq_false_2. }
  assert (Hx : exn_of (g_grid vr_ops e g a dask) = None).
  { apply (grid_total vr_ops e sub_keeps sub_keeps_refl sub_keeps_trans (vr_grid_keeps e) vr_reload_keeps g_strip_keeps g a dask (Some r));
      [apply vr_origins|by eapply root_tiles_known|unfold mismatch; by rewrite Hc, andb_false_r| |unfold call_rez; by rewrite Hr|].
    { rewrite (root_is_empty (new_vr_meta 0 0 size sub b zarr) _ Hs _ _ _ _ HI). by apply bool_decide_eq_false_2. }
    intros k sg Ht. unfold entry_result, entry_at. cbn [en_k en_t en_run Nat.add]. destruct (skip_tile _ _ _ sg); [by eexists|].
    assert (Hb : borders vr_ops g a dask (Some r) k sg = Ok None).
    { unfold borders, border_for. rewrite bool_decide_eq_false_2; [done|]. rewrite Ha. by destruct sa. }
    rewrite Hb. cbn [rbind]. cbn [vr_ops grid_ops op_grid op_sr]. rewrite andb_false_r.
    replace (next_clear vr_ops a (ga_clear a)) with (ga_clear a) by (rewrite next_clear_true; done).
    destruct (Hnest (Some r) None) as (A1 & A2 & A3); [unfold call_rez; by rewrite Hr|]. set (a' := call_args _ _ _ _ _ _ _) in *.
    destruct (Hchild k sg Ht) as (C1 & C2 & C3).
    rewrite (sound_grid_total e sub false sa r Hp sg a' None C1 (tiles_known_none sg) C2 C3 A1 A3 A2). by eexists. }
  split; [done|]. pose proof (GH_grid vr_ops e _ g ct seen ok a dask H) as H'. set (g' := st_of (g_grid vr_ops e g a dask)) in *.
  pose proof (vr_history_inv e size sub b zarr disk Hs Hsub g' ct seen ok H') as HI'.
  intros x y sg' j u v Hg Ho here. destruct (root_has _ _ _ _ _ _ _ _ _ HI' Hg) as [Hn1 HC]. cbn [m_tile_size new_vr_meta new_meta] in *.
  assert (El : all_points (content_in u v sub (content_in x y size ct)) = here) by (by rewrite !content_in_points, filter_both).
  assert (HL : slot_ok (sr_rep sub false) u v (content_in u v sub (content_in x y size ct)) (tile_at sg' j)).
  { destruct HC as [_ [(H1 & Hz & _)|(_ & a0 & HPl & _)]]; [done|]. exact (placed_loc _ _ _ _ _ _ _ _ _ _ _ _ HPl Ho). }
  destruct (tile_at sg' j) as [t|] eqn:Ht; cbn in HL; [|by rewrite <- El, HL].
  destruct HL as (Hn2 & HR). pose proof HR as (_ & HT & _). rewrite (rep_data _ _ HT Hn2), El. split; [done|]. split.
  - rewrite <- El. rewrite all_points_nil_iff; [done|]. apply content_in_nonempty.
  - rewrite <- El. apply current_reflects; [done|done|]. destruct Hg as (k & _ & Hk).
    destruct (tile_at g k) as [sg|] eqn:Hsg.
    2:{ unfold g' in Hk. by rewrite (gd_none _ _ _ _ _ _ (vr_finished e g a dask (vr_origins g) Hx) k Hsg) in Hk. }
    destruct (vr_done_tile e g a dask Hx) as (rez & Hrez & HD). destruct (HD k sg Hsg) as (sg2 & Hk2 & HD2).
    fold g' in Hk2. rewrite Hk2 in Hk. injection Hk as ->.
    replace (skip_tile vr_ops a (ga_clear a) sg) with false in HD2 by (unfold skip_tile; by rewrite Hc, andb_false_r).
    destruct HD2 as (bd & _ & Hx2 & -> & _). destruct (Hnest rez bd Hrez) as (A1 & A2 & A3). destruct (Hchild k sg Hsg) as (C1 & C2 & C3).
    by eapply (sound_grid_current e sub false Hsub sa r sg).
Qed.

Lemma vr_history_frame e size sub b zarr disk g ct seen ok : 0 < size -> 0 < sub -> size mod sub = 0 ->
  vr_history e size sub b zarr disk g ct seen ok -> ct <> [] ->
  exists lx ly nx ny, frame g size ct lx ly nx ny /\
    (forall k sg, tile_at g k = Some sg ->
      sub_frame sg (lx + Z.of_nat (k mod nx) * size) (ly + Z.of_nat (k / nx) * size) sub (Z.to_nat (size / sub))) /\
    forall k, tile_at g k = None -> forall x y, origin_at g k = Some (x, y) -> filter (fun p => in_square x y size (px p) (py p)) (all_points ct) = [].
Proof.
  intros Hs Hsub Hm H Hne. pose proof (vr_history_inv e size sub b zarr disk Hs Hsub g ct seen ok H) as HI.
  destruct (root_frame (new_vr_meta 0 0 size sub b zarr) _ _ _ _ _ Hs HI Hne) as (lx & ly & nx & ny & HF).
  exists lx, ly, nx, ny. split; [exact HF|]. split.
  - intros k sg Hk. pose proof (fr_slot _ _ _ _ _ _ _ HF k (fr_tile _ _ _ _ _ _ _ HF _ _ Hk)) as Ho. cbn [m_tile_size new_vr_meta new_meta] in Ho.
    destruct (root_has _ _ _ _ _ _ _ _ _ HI (ex_intro _ k (conj Ho Hk))) as [Hc HR].
    assert (E : size = Z.of_nat (Z.to_nat (size / sub)) * sub). { rewrite Z2Nat.id by (apply Z.div_pos; lia). pose proof (Z.div_mod size sub). lia. }
    assert (Hpos : (0 < Z.to_nat (size / sub))%nat). { destruct (Z.to_nat (size / sub)); lia. }
    exact (child_sub_frame (sub0 size sub b zarr _ _) _ _ _ _ _ _ _ Hsub Hpos E HR Hc).
  - intros k Hk x y Ho. pose proof (root_loc _ _ _ _ _ _ _ _ _ HI Ho) as Hl. rewrite Hk in Hl. cbn in Hl. rewrite <- content_in_points. cbn in Hl. by rewrite Hl.
Qed.
