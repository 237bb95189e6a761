(** Grids whose tiles answer alike answer alike; used for grids loaded from folders. *)
From Verif Require Import Py Nd Numpy Point Bin Algorithms Tile Time Meta Disk Grid GridRun GridQuery GridOps Export Views Spec GridExec Store StoreExec SessionSpec
  LoadAnswerSpec PyFacts GridRunFacts GridEvolveFacts GridReadFacts GridSessionFacts GridOwnFacts GridVrSessionFacts.
Open Scope Z_scope.

Definition rrel {A B} (P : A -> B -> Prop) (x : res A) (y : res B) : Prop :=
  match x, y with Ok a, Ok b => P a b | Raise a, Raise b => a = b | _, _ => False end.
Lemma rrel_bind {A B A' B'} (P : A -> B -> Prop) (Q : A' -> B' -> Prop) x y f f' :
  rrel P x y -> (forall a b, P a b -> rrel Q (f a) (f' b)) -> rrel Q (rbind x f) (rbind y f').
Proof. destruct x, y; cbn; try done. auto. Qed.
Lemma rrel_same {A A' B'} (Q : A' -> B' -> Prop) (x : res A) f f' :
  (forall a, rrel Q (f a) (f' a)) -> rrel Q (rbind x f) (rbind x f').
Proof. intros H. destruct x; cbn; [apply H|done]. Qed.
Lemma rrel_foldl {A B K} (P : A -> B -> Prop) (f : res A -> K -> res A) (f' : res B -> K -> res B) ks : forall x y,
  (forall a k, f (Raise a) k = Raise a) -> (forall a k, f' (Raise a) k = Raise a) ->
  (forall a b k, k ∈ ks -> P a b -> rrel P (f (Ok a) k) (f' (Ok b) k)) -> rrel P x y -> rrel P (foldl f x ks) (foldl f' y ks).
Proof.
  induction ks as [|k ks IH]; intros x y H1 H2 HS Hx; cbn [foldl]; [done|]. apply IH; try done.
  - intros a b k' Hk. apply HS. by right.
  - destruct x as [a|a], y as [b|b]; cbn in Hx; try done; [apply HS; [by left|done]|]. rewrite H1, H2. done.
Qed.
(** The answers are the same and the states are the given ones. *)
Definition pair_at {S S' X} (s : S) (s' : S') (p : S * X) (q : S' * X) : Prop := p.1 = s /\ q.1 = s' /\ q.2 = p.2.
Lemma rrel_same_query {S S' X} (s : S) (s' : S') (x : res (S * X)) y : rrel (pair_at s s') x y -> same_query s s' x y.
Proof. destruct x as [[]|], y as [[]|]; cbn; try done. Qed.

Lemma rel_at {T} (R : T -> T -> Prop) (g g' : grid T) k : tiles_rel R (g_tiles g) (g_tiles g') -> opt_rel R (tile_at g k) (tile_at g' k).
Proof.
  unfold tiles_rel, tile_at. destruct (g_tiles g) as [a|], (g_tiles g') as [a'|]; try done. cbn. intros (_ & _ & H).
  destruct (nflat a !! k) as [o|] eqn:E.
  - destruct (Forall2_lookup_l _ _ _ _ _ H E) as (o' & -> & HR). cbn. by destruct o, o'.
  - assert (E' : nflat a' !! k = None) by (apply lookup_ge_None in E; apply lookup_ge_None; by rewrite <- (Forall2_length _ _ _ H)). by rewrite E'.
Qed.
Lemma rel_live {T} (R : T -> T -> Prop) (g g' : grid T) : tiles_rel R (g_tiles g) (g_tiles g') -> Forall2 R (live_tiles g) (live_tiles g').
Proof.
  unfold tiles_rel, live_tiles. destruct (g_tiles g) as [a|], (g_tiles g') as [a'|]; try done. cbn. intros (_ & _ & H).
  induction H as [|o o' l l' HR H IH]; [constructor|]. destruct o, o'; cbn in *; try done. by constructor.
Qed.
Lemma rel_size {T} (R : T -> T -> Prop) (g g' : grid T) : tiles_rel R (g_tiles g) (g_tiles g') -> tiles_size g' = tiles_size g.
Proof.
  unfold tiles_rel, tiles_size. destruct (g_tiles g) as [a|], (g_tiles g') as [a'|]; try done. intros (_ & _ & H). cbn. symmetry. by eapply Forall2_length.
Qed.
Lemma rel_cols {T} (R : T -> T -> Prop) (g g' : grid T) : tiles_rel R (g_tiles g) (g_tiles g') -> option_map ncols (g_tiles g') = option_map ncols (g_tiles g).
Proof. unfold tiles_rel. destruct (g_tiles g) as [a|], (g_tiles g') as [a'|]; try done. intros (_ & H & _). cbn. by rewrite H. Qed.

Lemma rel_mono {T} (R R' : T -> T -> Prop) a b : (forall t t', R t t' -> R' t t') -> tiles_rel R a b -> tiles_rel R' a b.
Proof.
  intros HR. unfold tiles_rel. destruct a as [a|], b as [b|]; try done. intros (-> & -> & H). split; [done|]. split; [done|].
  eapply Forall2_impl; [exact H|]. intros [t|] [t'|]; cbn; auto.
Qed.

(** The attributes the queries use. *)
Record kin (m m' : gmeta) : Prop := {
  kin_rezs : m_rezs m' = m_rezs m; kin_height : m_height m' = m_height m; kin_width : m_width m' = m_width m;
  kin_size : m_tile_size m' = m_tile_size m; kin_up : m_positive_up m' = m_positive_up m; kin_ext : m_ext m' = m_ext m }.
Ltac same_meta Hm := rewrite ?(kin_rezs _ _ Hm), ?(kin_height _ _ Hm), ?(kin_width _ _ Hm), ?(kin_size _ _ Hm), ?(kin_up _ _ Hm), ?(kin_ext _ _ Hm).
Lemma kin_same m m' : m' = m -> kin m m'.
Proof. intros ->. by split. Qed.

Section alike.
  Context {T : Type} (O : tile_ops T) (e : env).
  Record tile_alike (t t' : T) : Prop := {
    ta_probe : op_probe O t' = op_probe O t;
    ta_geo : forall r, op_geo O t' r = op_geo O t r;
    ta_layer : forall l r n u, l ∈ standard_layers -> rrel (pair_at t t') (op_get_layer O e t l r n u) (op_get_layer O e t' l r n u) }.
  Context (g g' : grid T) (Hm : kin (g_meta g) (g_meta g')) (HT : tiles_rel tile_alike (g_tiles g) (g_tiles g')).
  Context (ls : list string) (Hls : forall l, l ∈ ls -> l ∈ standard_layers).

  Lemma no_grid_alike : g_no_grid O g' = g_no_grid O g.
  Proof using HT.
    unfold g_no_grid. pose proof (rel_live _ _ _ HT) as HL. unfold tiles_rel in HT. destruct (g_tiles g), (g_tiles g'); try done.
    destruct HL as [|t t' l l' HR _]; [done|]. by rewrite (ta_probe _ _ HR).
  Qed.
  Lemma read_alike t t' r n u : tile_alike t t' -> rrel (pair_at t t') (read_layers O e t ls r n u) (read_layers O e t' ls r n u).
  Proof using Hls.
    intros HA. unfold read_layers. apply rrel_foldl; [done|done| |by cbn].
    intros [s d] [s' d'] l Hl (E1 & E2 & E3). cbn [fst snd] in E1, E2, E3. subst s s' d'. cbn [rbind fst snd].
    eapply rrel_bind; [exact (ta_layer _ _ HA l r n u (Hls l Hl))|]. intros [s o] [s' o'] (E1 & E2 & E3). cbn [fst snd] in *. by subst s s' o'.
  Qed.
  Lemma data_alike k r n u : rrel (pair_at g g') (get_tile_data O e g k r ls n u) (get_tile_data O e g' k r ls n u).
  Proof using Hm HT Hls.
    unfold get_tile_data, eff_up. same_meta Hm. rewrite (rel_cols _ _ _ HT). apply rrel_same. intros cols. apply rrel_same. intros m.
    pose proof (rel_at _ _ _ k HT) as HK. destruct (tile_at g k) as [t|] eqn:E, (tile_at g' k) as [t'|] eqn:E'; try done. cbn [opt_rel rofopt rbind] in HK |- *.
    eapply rrel_bind; [by apply read_alike|]. intros [s d] [s' d'] (E1 & E2 & E3). cbn [fst snd] in *. subst s s' d'.
    rewrite (ta_geo _ _ HK). unfold rrel, pair_at. cbn [fst snd]. split; [apply set_tile_id; [done|by eexists]|]. split; [apply set_tile_id; [done|by eexists]|]. done.
  Qed.
  Lemma query_alike rez n u : rrel (pair_at g g') (g_get_layers_by_name O e g ls rez n u) (g_get_layers_by_name O e g' ls rez n u).
  Proof using Hm HT Hls.
    unfold g_get_layers_by_name. rewrite no_grid_alike. apply rrel_same. intros ng. destruct ng; [done|].
    assert (E1 : pick_rez g' rez = pick_rez g rez) by (unfold pick_rez; by same_meta Hm). rewrite E1. apply rrel_same. intros r.
    assert (E2 : rmap (fun l => build_layer_grid g' r l n) ls = rmap (fun l => build_layer_grid g r l n) ls) by (unfold build_layer_grid; by same_meta Hm).
    rewrite E2. apply rrel_same. intros data. rewrite (rel_size _ _ _ HT).
    eapply (rrel_bind (fun s s' => s.1.1 = g /\ s'.1.1 = g' /\ s'.1.2 = s.1.2 /\ s'.2 = s.2)).
    - apply rrel_foldl; [done|done| |by cbn].
      intros [[h d] f] [[h' d'] f'] k _ (F1 & F2 & F3 & F4). cbn [fst snd] in F1, F2, F3, F4. subst h h' d' f'. cbn [rbind layer_step].
      pose proof (rel_at _ _ _ k HT) as HK. destruct (tile_at g k) as [t|], (tile_at g' k) as [t'|]; try done.
      eapply rrel_bind; [apply data_alike|]. intros [h td] [h' td'] (F1 & F2 & F3). cbn [fst snd] in F1, F2, F3 |- *. subst h h' td'.
      apply rrel_same. intros d2. by cbn.
    - intros [[h d] f] [[h' d'] f'] (F1 & F2 & F3 & F4). cbn [fst snd] in *. by subst.
  Qed.
  Lemma trimmed_alike rez n u : rrel (pair_at g g') (g_get_layers_trimmed O e g ls rez n u) (g_get_layers_trimmed O e g' ls rez n u).
  Proof using Hm HT Hls.
    unfold g_get_layers_trimmed. eapply rrel_bind; [apply query_alike|]. intros [h d] [h' d'] (E1 & E2 & E3). cbn [fst snd] in *. subst.
    do 4 (apply rrel_same; intros). by cbn.
  Qed.
  Lemma surf_alike rez n : rrel (pair_at g g') (g_surf_boundaries O e g ls rez n) (g_surf_boundaries O e g' ls rez n).
  Proof using Hm HT Hls.
    unfold g_surf_boundaries. rewrite no_grid_alike. apply rrel_same. intros ng. destruct ng; [done|].
    assert (E1 : pick_rez g' rez = pick_rez g rez) by (unfold pick_rez; by same_meta Hm). rewrite E1. apply rrel_same. intros r.
    eapply rrel_bind; [apply trimmed_alike|]. intros [h [[d mi] ma]] [h' q'] (F1 & F2 & F3). cbn [fst snd] in *. subst. same_meta Hm. apply rrel_same. intros x. by cbn.
  Qed.
  Lemma nodes_alike rez n : rrel (pair_at g g') (g_surf_nodes O e g ls rez n) (g_surf_nodes O e g' ls rez n).
  Proof using Hm HT Hls.
    unfold g_surf_nodes. rewrite no_grid_alike. apply rrel_same. intros ng. destruct ng; [done|].
    assert (E1 : pick_rez g' rez = pick_rez g rez) by (unfold pick_rez; by same_meta Hm). rewrite E1. apply rrel_same. intros r.
    eapply rrel_bind; [apply trimmed_alike|]. intros [h [[d mi] ma]] [h' q'] (F1 & F2 & F3). cbn [fst snd] in *. subst. same_meta Hm. apply rrel_same. intros x. by cbn.
  Qed.
  Lemma tiles_alike rez n u : rrel (pair_at g g') (g_get_tiles_by_resolution O e g rez ls n u) (g_get_tiles_by_resolution O e g' rez ls n u).
  Proof using Hm HT Hls.
    unfold g_get_tiles_by_resolution. assert (E1 : pick_rez g' rez = pick_rez g rez) by (unfold pick_rez; by same_meta Hm). rewrite E1. apply rrel_same. intros r.
    rewrite no_grid_alike. apply rrel_same. intros ng. destruct ng; [done|]. rewrite (rel_size _ _ _ HT).
    apply rrel_foldl; [done|done| |by cbn].
    intros [h d] [h' d'] k _ (F1 & F2 & F3). cbn [fst snd] in F1, F2, F3. subst h h' d'. cbn [rbind tiles_step fst snd].
    pose proof (rel_at _ _ _ k HT) as HK. destruct (tile_at g k) as [t|], (tile_at g' k) as [t'|]; try done.
    eapply rrel_bind; [apply data_alike|]. intros [h td] [h' td'] (F1 & F2 & F3). cbn [fst snd] in F1, F2, F3 |- *. by subst h h' td'.
  Qed.
  Lemma indices_alike mc : tile_chunk_indices g' mc = tile_chunk_indices g mc.
  Proof using Hm HT.
    unfold tile_chunk_indices. same_meta Hm. unfold tiles_rel in HT. destruct (g_tiles g) as [a|], (g_tiles g') as [a'|]; try done. cbn [rofopt rbind].
    destruct HT as (Hr & Hc & HF).
    assert (EN : forall k, is_Some (mjoin (nflat a' !! k)) <-> is_Some (mjoin (nflat a !! k))).
    { intros k. destruct (nflat a !! k) as [o|] eqn:E.
      - destruct (Forall2_lookup_l _ _ _ _ _ HF E) as (o' & -> & HR). cbn. destruct o, o'; cbn in *; try done; split; eauto.
      - assert (E' : nflat a' !! k = None) by (apply lookup_ge_None in E; apply lookup_ge_None; by rewrite <- (Forall2_length _ _ _ HF)). by rewrite E'. }
    assert (E1 : live_positions a' = live_positions a).
    { unfold live_positions. rewrite <- (Forall2_length _ _ _ HF), Hc. induction (seq 0 (length (nflat a))) as [|k ks IH]; [done|]. cbn. rewrite IH.
      specialize (EN k). destruct (mjoin (nflat a' !! k)), (mjoin (nflat a !! k)); try done; exfalso; [apply (is_Some_None (A := T)), EN|apply (is_Some_None (A := T)), EN]; by eexists. }
    assert (E2 : index_array a' = index_array a).
    { unfold index_array. rewrite Hr, Hc. unfold nd_init. f_equal. apply map_ext. intros k. unfold nd_get. rewrite Hr, Hc.
      destruct (_ && _); [|done]. set (j := (k `div` ncols a * ncols a + k `mod` ncols a)%nat). specialize (EN j).
      destruct (mjoin (nflat a' !! j)), (mjoin (nflat a !! j)); try done; exfalso; [apply (is_Some_None (A := T)), EN|apply (is_Some_None (A := T)), EN]; by eexists. }
    by rewrite E1, E2.
  Qed.
  Lemma chunks_alike r n u mc gd : rrel (pair_at g g') (g_get_chunks_of_tiles O e g r ls n u mc gd) (g_get_chunks_of_tiles O e g' r ls n u mc gd).
  Proof using Hm HT Hls.
    unfold g_get_chunks_of_tiles. rewrite indices_alike. apply rrel_same. intros idx. apply rrel_foldl; [done|done| |by cbn].
    intros [h cs] [h' cs'] il _ (F1 & F2 & F3). cbn [fst snd] in F1, F2, F3. subst h h' cs'. unfold read_chunk. cbn [rbind fst snd].
    rewrite (rel_cols _ _ _ HT). apply rrel_same. intros cols.
    eapply (rrel_bind (fun s s' => s.1.1 = g /\ s'.1.1 = g' /\ s'.1.2 = s.1.2 /\ s'.2 = s.2)).
    - apply rrel_foldl; [done|done| |by cbn].
      intros [[h ge] ds] [[h' ge'] ds'] rc _ (F1 & F2 & F3 & F4). cbn [fst snd] in F1, F2, F3, F4. subst h h' ge' ds'. cbn [rbind].
      eapply rrel_bind; [apply data_alike|]. intros [h td] [h' td'] (F1 & F2 & F3). cbn [fst snd] in F1, F2, F3 |- *. subst h h' td'.
      apply rrel_same. intros ge2. by cbn.
    - intros [[h ge] ds] [[h' ge'] ds'] (F1 & F2 & F3 & F4). cbn [fst snd] in *. subst. destruct (forallb _ ds); [by cbn|].
      apply rrel_same. intros m. destruct (existsb _ ds); [done|]. apply rrel_same. intros data. by cbn.
  Qed.
End alike.
Section values.
  Context {T : Type} (O : tile_ops T) (e : env) (g g' : grid T) (Hm : kin (g_meta g) (g_meta g')) (HT : tiles_rel (tile_alike O e) (g_tiles g) (g_tiles g')).
  Lemma values_alike xs ys l rez n : l ∈ standard_layers ->
    rrel (pair_at g g') (g_layer_values_at_xy O e g xs ys l rez n) (g_layer_values_at_xy O e g' xs ys l rez n).
  Proof using Hm HT.
    intros Hl. assert (Hls : forall l', l' ∈ [l] -> l' ∈ standard_layers) by (intros l' ->%elem_of_list_singleton; done).
    unfold g_layer_values_at_xy. destruct (negb _); [done|]. same_meta Hm. apply rrel_foldl; [done|done| |by cbn].
    intros [h d] [h' d'] r _ (F1 & F2 & F3). cbn [fst snd] in F1, F2, F3. subst h h' d'. unfold query_step. cbn [rbind fst snd]. destruct (negb _); [by cbn|].
    eapply rrel_bind; [apply surf_alike; done|]. intros [h [[d2 mi] ma]] [h' q'] (F1 & F2 & F3). cbn [fst snd] in *. subst.
    apply rrel_same. intros sf. apply rrel_same. intros x. by cbn.
  Qed.
End values.

(** ** Tiles *)
Lemma standard_std l : l ∈ standard_layers -> l ∈ std_layers.
Proof.
  intros H. apply elem_of_list_In in H. cbn in H.
  repeat (destruct H as [<-|H]; [apply (bool_decide_unpack _); vm_compute; exact I|]). done.
Qed.
Lemma same_tile_alike e t t' : same_tile t t' -> tile_alike sr_ops e t t'.
Proof.
  intros [S1 S2 S3 S4 S5 S6 S7 S8 S9 S10 S11 S12 S13 S14].
  assert (HN : (length (t_cells t') = 0)%nat <-> (length (t_cells t) = 0)%nat).
  { split; intros H%length_zero_iff_nil.
    - destruct (t_cells t) as [|[r d] c]; [done|]. exfalso. assert (Hr : r ∈ dkeys (t_cells t')) by (apply S10; cbn; left). rewrite H in Hr. by apply elem_of_nil in Hr.
    - destruct (t_cells t') as [|[r d] c]; [done|]. exfalso. assert (Hr : r ∈ dkeys (t_cells t)) by (apply S10; cbn; left). rewrite H in Hr. by apply elem_of_nil in Hr. }
  split.
  - cbn. do 2 f_equal. by apply bool_decide_ext.
  - intros r. cbn. unfold t_get_geotransform. assert (HB : dmem (t_cells t') r = dmem (t_cells t) r) by (apply bool_decide_ext, S10). rewrite HB. unfold t_max_y. by rewrite S1, S2, S3.
  - intros l r n u Hl. change (rrel (pair_at t t') (t_get_layers_by_name e t l (Some r) n u) (t_get_layers_by_name e t' l (Some r) n u)).
    rewrite !std_query by (by apply standard_std). unfold t_is_empty, t_points_count. rewrite S5. destruct (_ =? 0)%nat; [by cbn|].
    specialize (S11 r l). specialize (S10 r). unfold layer_of in S11.
    destruct (dget (t_cells t) r) as [d|] eqn:E, (dget (t_cells t') r) as [d'|] eqn:E'; cbn in S11 |- *; try done.
    + rewrite S11. apply rrel_same. intros a. by cbn.
    + exfalso. assert (H : r ∈ dkeys (t_cells t')) by (apply S10, dget_is_Some; by eexists). apply dget_is_Some in H. rewrite E' in H. by destruct H.
    + exfalso. assert (H : r ∈ dkeys (t_cells t)) by (apply S10, dget_is_Some; by eexists). apply dget_is_Some in H. rewrite E in H. by destruct H.
Qed.
Lemma sub_alike e sg sg' : sub_loaded sg sg' -> tile_alike vr_ops e sg sg'.
Proof.
  intros [_ Hm _ HR]. assert (HT : tiles_rel (tile_alike sr_ops e) (g_tiles sg) (g_tiles sg')).
  { eapply rel_mono; [|exact HR]. intros t t' [H _]. by apply same_tile_alike. }
  split.
  - cbn. unfold g_probe. pose proof (rel_live _ _ _ HT) as HL. clear -HL.
    assert (H : option_Forall2 (tile_alike sr_ops e) (last (live_tiles sg)) (last (live_tiles sg'))).
    { induction HL as [|t t' l l' HR HL IH]; [constructor|]. destruct HL as [|u u' l l' HR' HL]; [by constructor|]. exact IH. }
    destruct H as [t t' H|]; [|done]. apply (ta_probe _ _ _ _ H).
  - intros r. cbn. by rewrite Hm.
  - intros l r n u Hl. cbn. unfold g_get_layer.
    eapply rrel_bind; [apply query_alike; [by apply kin_same|exact HT|intros l' ->%elem_of_list_singleton; done]|].
    intros [h d] [h' d'] (E1 & E2 & E3). cbn [fst snd] in *. subst. destruct d as [d|]; [|by cbn]. apply rrel_same. intros a. by cbn.
Qed.

(** ** Grids loaded from folders *)
Lemma sr_saved_alike e size b zarr g ct F : 0 < size -> sess_inv e None size b zarr g ct -> ct <> [] ->
  exists g', load_sr (fs_run F (ev_of (save_sr_to g))) = Ok g' /\ kin (g_meta g) (g_meta g') /\ tiles_rel (tile_alike sr_ops e) (g_tiles g) (g_tiles g').
Proof.
  intros Hs HS Hne. pose proof HS as (seen & ok & HI).
  pose proof HI as [_ [(_ & E & _)|(_ & lx & ly & nx & ny & a & [P1 P2 P3 P4 P5 P6 P7 P8] & (_ & _ & F3 & F4 & F5) & _)]]; [done|].
  destruct (saved_loads g F lx ly size nx ny a Hs P1 P2 P3 P4 P5 P6) as (g' & L1 & L2 & L3 & L4 & L5 & L6 & L7).
  { by destruct P7. }
  { intros k t Ht. by eapply sess_tile_plain. }
  { rewrite F3, F4, F5. eauto. }
  exists g'. split; [done|]. split; [by apply kin_same|]. eapply rel_mono; [|exact L7]. intros t t' [H _]. by apply same_tile_alike.
Qed.
Lemma vr_saved_alike e size sub b zarr g ct F : 0 < size -> 0 < sub -> vsess_inv e None size sub b zarr g ct -> ct <> [] ->
  (forall k x y, origin_at g k = Some (x, y) -> tile_at g k = None -> fs_exists F [FFolder (NTile x y)] = false) ->
  exists g', load_vr (fs_run F (ev_of (save_vr_to g))) = Ok g' /\ kin (g_meta g) (g_meta g') /\ tiles_rel (tile_alike vr_ops e) (g_tiles g) (g_tiles g').
Proof.
  intros Hs Hsub HS Hne HF. destruct (vsess_save e None size sub b zarr Hs Hsub g ct F HS Hne HF) as (_ & g' & L1 & _ & _ & L4 & L5 & _).
  exists g'. split; [done|]. split; [by apply kin_same|]. eapply rel_mono; [|exact L5]. intros t t' H. by apply sub_alike.
Qed.
Lemma own_alike e size b zarr g f ct : 0 < size -> own_inv e None size b zarr g f ct -> ct <> [] ->
  exists g', load_sr f = Ok g' /\ kin (g_meta g) (g_meta g') /\ tiles_rel (tile_alike sr_ops e) (g_tiles g) (g_tiles g').
Proof.
  intros Hs HS Hne. destruct (own_load e None size b zarr Hs g f ct HS Hne) as (g' & n & q & L1 & _ & L3 & _ & _ & L6 & _).
  exists g'. split; [done|]. split; [rewrite L3; by split|]. eapply rel_mono; [|exact L6]. intros t t' [H _]. by apply same_tile_alike.
Qed.
Lemma alike_answers {T} (O : tile_ops T) e g g' : kin (g_meta g) (g_meta g') -> tiles_rel (tile_alike O e) (g_tiles g) (g_tiles g') ->
  same_answers_of O e g g' /\ same_chunks_of O e g g'.
Proof.
  intros Hm HT. split; [split|].
  - intros. by apply rrel_same_query, query_alike.
  - intros. by apply rrel_same_query, trimmed_alike.
  - intros. by apply rrel_same_query, surf_alike.
  - intros. by apply rrel_same_query, nodes_alike.
  - intros. by apply rrel_same_query, tiles_alike.
  - intros. by apply rrel_same_query, values_alike.
  - intros ls r n up mc gd Hls. by apply rrel_same_query, chunks_alike.
Qed.
