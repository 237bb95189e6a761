(** What queries and exports change. *)
From Verif Require Import Py Nd Numpy Point Bin Algorithms Tile Time Meta Disk Grid GridRun GridQuery GridOps Export Views Spec TileExec GridExec KeepSpec
  PyFacts NdFacts TileFacts TileGridFacts GridEvolveFacts GridReadFacts GridBaseFacts GridRunFacts GridCleanFacts NameFacts.
Open Scope Z_scope.

Lemma rbind_Ok {A B} (m : res A) (f : A -> res B) b : rbind m f = Ok b -> exists a, m = Ok a /\ f a = Ok b.
Proof. destruct m; [eauto|done]. Qed.
Lemma foldl_raise {A B} (f : res A -> B -> res A) l x : (forall y b a, f y b = Ok a -> exists a0, y = Ok a0) -> forall a, foldl f (Raise x) l <> Ok a.
Proof.
  intros H. revert x. induction l as [|b l IH]; intros x a; [done|]. cbn [foldl]. destruct (f (Raise x) b) eqn:E; [|apply IH].
  destruct (H _ _ _ E) as [? [=]].
Qed.
Lemma foldl_keep {A B} (P : A -> A -> Prop) (f : res A -> B -> res A) :
  (forall a, P a a) -> (forall a b c, P a b -> P b c -> P a c) -> (forall y b a', f y b = Ok a' -> exists a, y = Ok a /\ P a a') ->
  forall l a a', foldl f (Ok a) l = Ok a' -> P a a'.
Proof.
  intros Hr Ht Hf. induction l as [|b l IH]; intros a a' E; cbn [foldl] in E; [injection E as ->; apply Hr|].
  destruct (f (Ok a) b) as [a1|x] eqn:E1.
  - destruct (Hf _ _ _ E1) as (a0 & [= <-] & H). eapply Ht; [exact H|]. by apply IH.
  - exfalso. eapply foldl_raise; [|exact E]. intros y b' c Hc. destruct (Hf _ _ _ Hc) as (a0 & -> & _). eauto.
Qed.
Ltac bind E := apply rbind_Ok in E as (?v & ?Hv & E).

Section keep.
  Context {T : Type} (O : tile_ops T) (e : env) (R : T -> T -> Prop).
  Context (Rrefl : forall t, R t t) (Rtrans : forall a b c, R a b -> R b c -> R a c).
  Context (L : string -> Prop) (Rget : forall t l r nd up t' o, L l -> op_get_layer O e t l r nd up = Ok (t', o) -> R t t').
  Notation keep := (same_but R).

  Lemma keep_refl g : keep g g.
  Proof using Rrefl. split; try done. intros k. destruct (tile_at g k); by cbn. Qed.
  Lemma keep_trans a b c : keep a b -> keep b c -> keep a c.
  Proof using Rtrans.
    intros [A1 A2 A3 A4 A5 A6] [B1 B2 B3 B4 B5 B6]. split; try congruence. intros k. specialize (A6 k). specialize (B6 k).
    destruct (tile_at a k), (tile_at b k), (tile_at c k); cbn in *; try done. eauto.
  Qed.
  Lemma keep_set g k t t' : tile_at g k = Some t -> R t t' -> keep g (set_tile g k (Some t')).
  Proof using Rrefl.
    intros Ht HR. unfold tile_at in *. unfold set_tile. destruct (g_tiles g) as [a|] eqn:E; [|done]. split; cbn; rewrite ?E; cbn; [done..| |].
    - by rewrite insert_length.
    - intros j. unfold tile_at. cbn. rewrite E. destruct (decide (j = k)) as [->|Hne].
      + rewrite Ht. destruct (nflat a !! k) as [o|] eqn:Eo; [|done]. apply lookup_lt_Some in Eo. by rewrite list_lookup_insert.
      + rewrite list_lookup_insert_ne by done. destruct (mjoin (nflat a !! j)); by cbn.
  Qed.
  Lemma keep_read layers r nd up : Forall L layers -> forall t t' d d', foldl (fun acc lyr => let* ta := acc in let* ro := op_get_layer O e ta.1 lyr r nd up in
      Ok (ro.1, match ro.2 with Some a => dset ta.2 lyr a | None => ta.2 end)) (Ok (t, d)) layers = Ok (t', d') -> R t t'.
  Proof using Rget Rrefl Rtrans.
    induction 1 as [|l ls Hl _ IH]; intros t t' d d' E; cbn [foldl rbind fst snd] in E; [injection E as -> _; apply Rrefl|].
    destruct (op_get_layer O e t l r nd up) as [[t1 o]|x] eqn:E1; cbn [rbind fst snd] in E.
    - eapply Rtrans; [by eapply Rget|]. by eapply IH.
    - exfalso. eapply foldl_raise; [|exact E]. intros [y|y] b a Ha; [by eexists|done].
  Qed.
  Lemma keep_tile_data g k r layers nd up g' d : Forall L layers -> get_tile_data O e g k r layers nd up = Ok (g', d) -> keep g g'.
  Proof using Rget Rrefl Rtrans.
    intros HL E. unfold get_tile_data in E. bind E. bind E. bind E. bind E. destruct v2 as [t' d'], (tile_at g k) as [t|] eqn:Ht; [|done].
    cbn in Hv1. injection Hv1 as <-. injection E as <- _. eapply keep_set; [done|]. by eapply keep_read.
  Qed.
  Lemma keep_layers g layers rez nd up g' o : Forall L layers -> g_get_layers_by_name O e g layers rez nd up = Ok (g', o) -> keep g g'.
  Proof using Rget Rrefl Rtrans.
    intros HL E. unfold g_get_layers_by_name in E. bind E. destruct v; [done|]. bind E. bind E. bind E. injection E as <- _.
    refine (foldl_keep (fun s s' : grid T * list arr * bool => keep s.1.1 s'.1.1) _ _ _ _ _ _ _ Hv2);
      [intros; apply keep_refl|intros ???; apply keep_trans|].
    intros y k s' Es. unfold layer_step in Es. bind Es. exists v2. split; [done|]. destruct v2 as [[h data] found]. destruct (tile_at h k); [|injection Es as <-; apply keep_refl].
    bind Es. bind Es. injection Es as <-. cbn. destruct v2. by eapply keep_tile_data.
  Qed.
  Lemma keep_trimmed g layers rez nd up g' o : Forall L layers -> g_get_layers_trimmed O e g layers rez nd up = Ok (g', o) -> keep g g'.
  Proof using Rget Rrefl Rtrans.
    intros HL E. unfold g_get_layers_trimmed in E. bind E. bind E. bind E. bind E. bind E. injection E as <- _. destruct v. by eapply keep_layers.
  Qed.
  Lemma keep_boundaries g layers rez nd g' o : Forall L layers -> g_surf_boundaries O e g layers rez nd = Ok (g', o) -> keep g g'.
  Proof using Rget Rrefl Rtrans.
    intros HL E. unfold g_surf_boundaries in E. bind E. destruct v; [done|]. bind E. bind E. destruct v0 as [h [[s mi] ma]]. cbn in E. bind E. injection E as <- _. by eapply keep_trimmed.
  Qed.
  Lemma keep_nodes g layers rez nd g' o : Forall L layers -> g_surf_nodes O e g layers rez nd = Ok (g', o) -> keep g g'.
  Proof using Rget Rrefl Rtrans.
    intros HL E. unfold g_surf_nodes in E. bind E. destruct v; [done|]. bind E. bind E. destruct v0 as [h [[s mi] ma]]. cbn in E. bind E. injection E as <- _. by eapply keep_trimmed.
  Qed.
  Lemma keep_values g xs ys l rez nd g' o : L l -> g_layer_values_at_xy O e g xs ys l rez nd = Ok (g', o) -> keep g g'.
  Proof using Rget Rrefl Rtrans.
    intros HL E. unfold g_layer_values_at_xy in E. destruct (negb _); [done|].
    refine (foldl_keep (fun s s' : grid T * list cell => keep s.1 s'.1) _ _ _ _ _ (g, _) (g', o) E);
      [intros; apply keep_refl|intros ???; apply keep_trans|].
    intros y k s' Es. unfold query_step in Es. bind Es. exists v. split; [done|]. destruct (negb _); [injection Es as <-; apply keep_refl|].
    bind Es. destruct v0 as [h [[sx sy] su]]. cbn in Es. bind Es. bind Es. injection Es as <-. cbn. eapply keep_boundaries; [|exact Hv0]. by constructor.
  Qed.
  Lemma keep_at g x y l rez nd g' o : L l -> g_layer_values_at O e g x y l rez nd = Ok (g', o) -> keep g g'.
  Proof using Rget Rrefl Rtrans.
    intros HL E. unfold g_layer_values_at in E. bind E. destruct v as [a b|a b].
    - destruct a as [| | |xs]; try done.
      assert (Hx : match xs, query_rezs g rez with
        | [], _ | _, [] => Ok (g, Values (replicate (length xs) nd))
        | _, r :: _ => let* _ := g_surf_boundaries O e g [l] (Some r) nd in Raise TypeError end = Ok (g', o) -> keep g g').
      { intros H. destruct xs; [injection H as <- _; apply keep_refl|]. destruct (query_rezs g rez); [injection H as <- _; apply keep_refl|]. bind H. done. }
      destruct b as [| | |ys]; try by apply Hx. bind E. injection E as <- _. destruct v. by eapply keep_values.
    - bind E. injection E as <- _. destruct v as [h c]. cbn.
      refine (foldl_keep (fun s s' : grid T * cell => keep s.1 s'.1) _ _ _ _ _ (g, _) (h, c) Hv0); [intros; apply keep_refl|intros ???; apply keep_trans|].
      intros z k s' Es. unfold number_step in Es. bind Es. exists v. split; [done|]. destruct (negb _); [injection Es as <-; apply keep_refl|].
      bind Es. destruct v0 as [h' [[sx sy] su]]. cbn in Es. bind Es. bind Es. injection Es as <-. cbn. eapply keep_boundaries; [|exact Hv2]. by constructor.
  Qed.
  Lemma keep_chunks g r layers nd up mx gd g' o : Forall L layers -> g_get_chunks_of_tiles O e g r layers nd up mx gd = Ok (g', o) -> keep g g'.
  Proof using Rget Rrefl Rtrans.
    intros HL E. unfold g_get_chunks_of_tiles in E. bind E.
    refine (foldl_keep (fun s s' : grid T * list (option (Z * Z * Z) * dict string arr) => keep s.1 s'.1) _ _ _ _ _ (g, _) (g', o) E);
      [intros; apply keep_refl|intros ???; apply keep_trans|].
    intros y il s' Es. unfold read_chunk in Es. bind Es. exists v0. split; [done|]. bind Es. bind Es. destruct v2 as [[h geo] ds].
    assert (Hk : keep v0.1 h).
    { refine (foldl_keep (fun s s' : grid T * option (Z * Z * Z) * list tile_read => keep s.1.1 s'.1.1) _ _ _ _ _ (v0.1, None, []) (h, geo, ds) Hv2);
        [intros; apply keep_refl|intros ???; apply keep_trans|].
      intros z rc s2 E2. bind E2. exists v2. split; [done|]. destruct v2 as [[h' geo'] ds']. bind E2. bind E2. injection E2 as <-. cbn. destruct v2. by eapply keep_tile_data. }
    destruct (forallb _ ds); [by injection Es as <-|]. bind Es. destruct (existsb _ ds); [done|]. bind Es. by injection Es as <-.
  Qed.
  Lemma keep_tiles g rez layers nd up g' o : Forall L layers -> g_get_tiles_by_resolution O e g rez layers nd up = Ok (g', o) -> keep g g'.
  Proof using Rget Rrefl Rtrans.
    intros HL E. unfold g_get_tiles_by_resolution in E. bind E. bind E. destruct v0; [done|].
    refine (foldl_keep (fun s s' : grid T * list tile_read => keep s.1 s'.1) _ _ _ _ _ (g, _) (g', o) E);
      [intros; apply keep_refl|intros ???; apply keep_trans|].
    intros y k s' Es. unfold tiles_step in Es. bind Es. exists v0. split; [done|]. destruct (tile_at v0.1 k); [|injection Es as <-; apply keep_refl].
    bind Es. injection Es as <-. cbn. destruct v1. by eapply keep_tile_data.
  Qed.
  Lemma keep_geotiff g up rez mx g' fs : L "depth" -> L "intensity" -> L "vertical_uncertainty" -> L "total_uncertainty" ->
    export_geotiff O e g up rez mx = Ok (g', fs) -> keep g g'.
  Proof using Rget Rrefl Rtrans.
    intros L1 L2 L3 L4 E. unfold export_geotiff in E. bind E.
    assert (HL : Forall L v.1).
    { unfold raster_layers in Hv. set (ln := if m_backscatter _ then _ else _) in Hv. assert (H : Forall L ln).
      { unfold ln. destruct (m_backscatter _); [by repeat constructor|]. apply Forall_forall. intros l Hl. apply elem_of_list_filter in Hl as [Hl _].
        apply elem_of_list_In in Hl. cbn in Hl. destruct Hl as [<-|[<-|[<-|[]]]]; done. }
      destruct (negb _ && up); [destruct (bool_decide _); [|done]|]; by injection Hv as <-. }
    refine (foldl_keep (fun s s' : grid T * list raster_file => keep s.1 s'.1) _ _ _ _ _ (g, _) (g', fs) E);
      [intros; apply keep_refl|intros ???; apply keep_trans|].
    intros y k s' Es. bind Es. exists v0. split; [done|]. bind Es. bind Es. injection Es as <-. cbn. destruct v1. by eapply keep_chunks.
  Qed.
  Lemma keep_bag g rez mx vc g' fs : L "depth" -> L "vertical_uncertainty" -> L "total_uncertainty" ->
    export_bag O e g rez mx vc = Ok (g', fs) -> keep g g'.
  Proof using Rget Rrefl Rtrans.
    intros L1 L2 L3 E. unfold export_bag in E. bind E.
    assert (HL : Forall L v.1).
    { unfold bag_layers in Hv. cbv zeta in Hv. destruct (bool_decide _); [|done]. injection Hv as <-. cbn [fst]. apply Forall_forall. intros l Hl. apply elem_of_list_filter in Hl as [Hl _].
      apply elem_of_list_In in Hl. cbn in Hl. destruct Hl as [<-|[<-|[<-|[]]]]; done. }
    refine (foldl_keep (fun s s' : grid T * list bag_file => keep s.1 s'.1) _ _ _ _ _ (g, _) (g', fs) E);
      [intros; apply keep_refl|intros ???; apply keep_trans|].
    intros y k s' Es. bind Es. exists v0. split; [done|]. bind Es. bind Es. injection Es as <-. cbn. destruct v1. by eapply keep_chunks.
  Qed.
  Lemma keep_csv g up rez g' fs : (forall l, L l) -> export_csv O e g up rez = Ok (g', fs) -> keep g g'.
  Proof using Rget Rrefl Rtrans.
    intros HL E. unfold export_csv in E.
    refine (foldl_keep (fun s s' : grid T * list csv_file => keep s.1 s'.1) _ _ _ _ _ (g, _) (g', fs) E);
      [intros; apply keep_refl|intros ???; apply keep_trans|].
    intros y k s' Es. bind Es. exists v. split; [done|]. bind Es. bind Es. destruct v1 as [h [[xs ys] data]]. cbn in Es. bind Es. injection Es as <-. cbn.
    eapply keep_nodes; [|exact Hv1]. apply Forall_forall. intros l _. apply HL.
  Qed.
End keep.

(** ** Tiles *)
Lemma extra_refl t : extra_layers t t.
Proof. by split. Qed.
Lemma extra_trans a b c : extra_layers a b -> extra_layers b c -> extra_layers a c.
Proof.
  intros [A1 A2 A3 A4 A5 A6 A7] [B1 B2 B3 B4 B5 B6 B7]. destruct_and?.
  split; repeat split; try congruence; [|by intros r n Hx; apply B7, A7]. intros r n Hx. by rewrite B6, A6.
Qed.
Lemma extra_set t r d : is_Some (dget (t_cells t) r) -> (forall n, n ∈ gridded_layers -> dget d n = dget (layers_at t r) n) ->
  (forall n, is_Some (dget (layers_at t r) n) -> is_Some (dget d n)) -> extra_layers t (set_layers t r d).
Proof.
  intros Hl Hd Hm. unfold set_layers, layers_at in *. split; try done.
  - change (dkeys (dset (t_cells t) r d) = dkeys (t_cells t)). rewrite dkeys_dset. apply dget_is_Some in Hl. by rewrite decide_True.
  - intros r' n Hn. unfold layer_of. cbn. rewrite dget_dset. destruct (decide (r' = r)) as [->|]; [|done]. rewrite Hd by done. by destruct Hl as [l ->].
  - intros r' n Hn. unfold layer_of in *. cbn. rewrite dget_dset. destruct (decide (r' = r)) as [->|]; [|done]. apply Hm. by destruct Hl as [l E]; rewrite E in *.
Qed.
Lemma dset_more {V} (d : dict string V) k v n : is_Some (dget d n) -> is_Some (dget (dset d k v) n).
Proof. intros H. rewrite dget_dset. destruct (decide _); [by eexists|done]. Qed.
Lemma container_name l : is_container_query l = true -> l ∉ gridded_layers.
Proof.
  intros H Hl. assert (HF : Forall (fun x => is_container_query x = false) gridded_layers) by (repeat (apply Forall_cons; split; [vm_compute; reflexivity|]); apply Forall_nil; exact I).
  rewrite Forall_forall in HF. by rewrite HF in H.
Qed.
Lemma density_name c : c +:+ "_density" ∉ gridded_layers.
Proof.
  intros H. assert (HC : forall s, c +:+ "_density" = s -> exists p, list_ascii_of_string s = p ++ list_ascii_of_string "_density").
  { intros s <-. exists (list_ascii_of_string c). apply chars_app. }
  apply elem_of_list_In in H. cbn in H. repeat destruct H as [H|H]; try done; symmetry in H; apply HC in H as [p E];
    apply (f_equal (fun l => take 8 (reverse l))) in E; rewrite reverse_app, take_app_le in E by (vm_compute; lia); vm_compute in E; discriminate.
Qed.
Lemma extra_query e t l r nd up t' o : t_get_layers_by_name e t l r nd up = Ok (t', o) -> extra_layers t t'.
Proof.
  unfold t_get_layers_by_name. destruct (t_is_empty t); [intros [= <- _]; apply extra_refl|]. intros E. bind E.
  destruct v as [k|]; [|injection E as <- _; apply extra_refl]. bind E. bind E. injection E as <- _.
  assert (Hk : is_Some (dget (t_cells t) k)).
  { apply dget_is_Some. destruct r as [r|].
    - destruct (dmem (t_cells t) r) eqn:Em; [|done]. injection Hv as <-. by apply dmem_true.
    - destruct (dkeys (t_cells t)) as [|x [|]] eqn:Ek; try done. injection Hv as <-. left. }
  clear Hv Hv1 v0. unfold prepare_query in Hv0. destruct (bool_decide (l ∈ slope_layers)).
  - unfold run_slopes in Hv0. destruct (dmem _ _); [injection Hv0 as <-; apply extra_refl|]. do 5 bind Hv0. injection Hv0 as <-. apply extra_set; [done| |].
    + intros n Hn. rewrite !dget_dset_ne; [done| |]; intros ->; apply elem_of_list_In in Hn; cbn in Hn; intuition discriminate.
    + intros n Hn. by do 2 apply dset_more.
  - destruct (is_container_query l) eqn:Eq; [|injection Hv0 as <-; apply extra_refl]. pose proof (container_name l Eq) as Hl.
    assert (HC : forall a, run_simple_container a t k l = Ok v -> extra_layers t v).
    { intros a H. unfold run_simple_container in H. destruct (t_data t); [|done]. do 4 bind H. injection H as <-. apply extra_set; [done| |].
      - intros n Hn. pose proof (density_name l). rewrite !dget_dset_ne; [done| |]; by intros ->.
      - intros n Hn. by do 2 apply dset_more. }
    destruct (dmem (t_container t) l).
    + repeat (destruct (bool_decide _); [first [by eapply HC|by destruct (e_cube_enabled e)]|]). injection Hv0 as <-. apply extra_refl.
    + bind Hv0. injection Hv0 as <-. unfold set_layer. apply extra_set; [done| |].
      * intros n Hn. rewrite dget_dset_ne; [done|]. by intros ->.
      * intros n Hn. by apply dset_more.
Qed.
Lemma same_query e t l r nd up t' o : l ∈ gridded_layers -> t_get_layers_by_name e t l r nd up = Ok (t', o) -> t = t'.
Proof.
  intros Hl. unfold t_get_layers_by_name. destruct (t_is_empty t); [by intros [= <- _]|]. intros E. bind E.
  destruct v as [k|]; [|by injection E as <- _]. bind E. bind E. injection E as <- _. clear Hv1.
  assert (Hp : prepare_query e t l k (layer_nodata l nd) = Ok t); [|congruence].
  unfold prepare_query. rewrite bool_decide_eq_false_2 by (intros H; apply elem_of_list_In in Hl, H; cbn in Hl, H; intuition (subst; discriminate)).
  destruct (is_container_query l) eqn:Eq; [by apply container_name in Eq|done].
Qed.
Lemma same_eq {T} (g g' : grid T) : same_but eq g g' -> g' = g.
Proof.
  intros [B1 B2 B3 B4 B5 B6]. apply grid_ext; try done.
  - destruct (g_tiles g), (g_tiles g'); try done. cbn in *. congruence.
  - destruct (g_tiles g), (g_tiles g'); try done. cbn in *. congruence.
  - unfold tiles_size. destruct (g_tiles g), (g_tiles g'); try done. cbn in *. congruence.
  - intros k. specialize (B6 k). destruct (tile_at g k), (tile_at g' k); cbn in *; try done. by subst.
Qed.
Lemma sub_query {T} (O : tile_ops T) e (R : T -> T -> Prop) (L : string -> Prop) : (forall t, R t t) -> (forall a b c, R a b -> R b c -> R a c) ->
  (forall t l r nd up t' o, L l -> op_get_layer O e t l r nd up = Ok (t', o) -> R t t') ->
  forall g l r nd up g' o, L l -> op_get_layer (grid_ops O) e g l r nd up = Ok (g', o) -> same_but R g g'.
Proof.
  intros Rr Rt Rg g l r nd up g' o Hl E. cbn in E. unfold g_get_layer in E. bind E. destruct v as [h [x|]]; cbn in E.
  - bind E. injection E as <- _. by eapply (keep_layers O e R Rr Rt L Rg); [|exact Hv]; constructor.
  - injection E as <- _. by eapply (keep_layers O e R Rr Rt L Rg); [|exact Hv]; constructor.
Qed.

Section queried.
  Context {T : Type} (O : tile_ops T) (e : env).
  Lemma queried_keep (R : T -> T -> Prop) (g : grid T) ls g' : (forall t, R t t) -> (forall a b c, R a b -> R b c -> R a c) ->
    (forall t l r nd up t' o, op_get_layer O e t l r nd up = Ok (t', o) -> R t t') -> queried O e g ls g' -> same_but R g g'.
  Proof.
    intros Rr Rt Rg. pose proof (fun ls : list string => proj2 (Forall_forall (fun _ : string => True) ls) (fun _ _ => I)) as HA.
    pose proof (fun t l r nd up t' o (_ : True) => Rg t l r nd up t' o) as Rg'.
    destruct 1; [eapply (keep_layers O e R Rr Rt (fun _ => True) Rg')|eapply (keep_trimmed O e R Rr Rt (fun _ => True) Rg')|
      eapply (keep_boundaries O e R Rr Rt (fun _ => True) Rg')|eapply (keep_nodes O e R Rr Rt (fun _ => True) Rg')|eapply (keep_at O e R Rr Rt (fun _ => True) Rg')|
      eapply (keep_chunks O e R Rr Rt (fun _ => True) Rg')|eapply (keep_tiles O e R Rr Rt (fun _ => True) Rg')|eapply (keep_geotiff O e R Rr Rt (fun _ => True) Rg')|
      eapply (keep_bag O e R Rr Rt (fun _ => True) Rg')|eapply (keep_csv O e R Rr Rt (fun _ => True) Rg')]; try done; eassumption.
  Qed.
  Lemma queried_same (g : grid T) ls g' : (forall t l r nd up t' o, l ∈ gridded_layers -> op_get_layer O e t l r nd up = Ok (t', o) -> t = t') ->
    Forall (fun l => l ∈ gridded_layers) ls -> queried O e g ls g' -> g' = g.
  Proof.
    intros Rg HL H. set (L := fun l => l ∈ gridded_layers) in *.
    assert (Rr : forall t : T, t = t) by done. assert (Rt : forall a b c : T, a = b -> b = c -> a = c) by congruence.
    assert (L1 : L "depth") by (apply (bool_decide_unpack _); vm_compute; exact I). assert (L2 : L "intensity") by (apply (bool_decide_unpack _); vm_compute; exact I).
    assert (L3 : L "vertical_uncertainty") by (apply (bool_decide_unpack _); vm_compute; exact I). assert (L4 : L "total_uncertainty") by (apply (bool_decide_unpack _); vm_compute; exact I).
    destruct H; try apply same_eq; [eapply (keep_layers O e eq Rr Rt L Rg)|eapply (keep_trimmed O e eq Rr Rt L Rg)|
      eapply (keep_boundaries O e eq Rr Rt L Rg)|eapply (keep_nodes O e eq Rr Rt L Rg)|eapply (keep_at O e eq Rr Rt L Rg g x y l); [apply (Forall_singleton L l); exact HL|]|
      eapply (keep_chunks O e eq Rr Rt L Rg)|eapply (keep_tiles O e eq Rr Rt L Rg)|eapply (keep_geotiff O e eq Rr Rt L Rg)|
      eapply (keep_bag O e eq Rr Rt L Rg)|]; try eassumption.
    - rename H into Hls, H0 into E. replace g' with g; [apply keep_refl; done|]. symmetry. unfold export_csv in E.
      refine (foldl_keep (fun s s' : grid T * list csv_file => s.1 = g -> s'.1 = g) _ _ _ _ _ (g, _) (g', o) E eq_refl); [done|by auto|].
      intros y k s' Es. bind Es. exists v. split; [done|]. bind Es. bind Es. destruct v1 as [h [[xs ys] data]]. cbn in Es. bind Es. injection Es as <-. cbn.
      intros E0. rewrite E0, Hls in Hv0. injection Hv0 as <-. rewrite E0 in Hv1. apply same_eq. by eapply (keep_nodes O e eq Rr Rt L Rg).
  Qed.
End queried.

(** ** The resolutions of a grid *)
Section rezs.
  Context {T : Type} (O : tile_ops T) (e : env).
  Definition distinct_rezs (g : grid T) : Prop := NoDup (m_rezs (g_meta g)).
  Lemma rezs_note g rs : distinct_rezs g -> distinct_rezs (note_rezs g rs).
  Proof.
    unfold distinct_rezs, note_rezs. cbn [g_meta set m_rezs]. intros H. cbn. generalize dependent (m_rezs (g_meta g)). induction rs as [|r rs IH]; intros l H; [done|]. cbn [foldl].
    destruct (bool_decide (r ∈ l)) eqn:E; [by apply IH|]. apply IH. apply bool_decide_eq_false in E. apply NoDup_app. split; [done|]. split; [|apply NoDup_singleton].
    intros x Hx Hx'. apply elem_of_list_singleton in Hx' as ->. done.
  Qed.
  Lemma rezs_set g k t : distinct_rezs g -> distinct_rezs (set_tile g k t).
  Proof. unfold distinct_rezs. by rewrite set_tile_meta. Qed.
  Lemma rezs_save g k m : distinct_rezs g -> distinct_rezs (st_of (save_reload O g k m)).
  Proof. intros H. unfold save_reload. repeat case_match; try done. cbn [st_of]. by apply rezs_set. Qed.
  Lemma rezs_finish g : distinct_rezs (finish_grid g).
  Proof. unfold distinct_rezs, finish_grid. cbn. unfold np_unique. rewrite merge_sort_Permutation. apply NoDup_remove_dups. Qed.
  Lemma rezs_regular g a auto rez : distinct_rezs g -> distinct_rezs (st_of (grid_regular O e g a auto rez)).
  Proof.
    intros H. unfold grid_regular. cbv zeta. set (r := oloop _ _ _).
    assert (Hr : distinct_rezs (st_of r).1).
    { apply (oloop_inv _ _ (fun s => distinct_rezs s.1)); [done|]. intros k [h c] _ Hh. cbn [fst] in Hh. unfold grid_step.
      destruct (tile_at h k); [|by apply rezs_save]. destruct (skip_tile _ _ _ _); [by apply rezs_note|]. cbv zeta. destruct (border_for _ _ _ _ _); [|done].
      destruct (op_grid _ _ _ _) as [r1 rz]. destruct (exn_of r1); [by apply rezs_set|]. cbn [st_of fst]. by apply rezs_save, rezs_note, rezs_set. }
    destruct (exn_of r); [done|]. apply rezs_finish.
  Qed.
  Lemma rezs_jobs g js : distinct_rezs g -> distinct_rezs (st_of (run_jobs O e g js)).
  Proof.
    intros H. unfold run_jobs. cbv zeta. destruct (first_exn _); [done|]. set (r := oloop _ _ _).
    assert (Hr : distinct_rezs (st_of r)).
    { apply (oloop_inv _ _ distinct_rezs); [done|]. intros [k t] h _ Hh. unfold store_result. by apply rezs_save, rezs_set. }
    destruct (exn_of r); [done|]. by apply rezs_note.
  Qed.
  Lemma rezs_parallel n g a auto rez : distinct_rezs g -> distinct_rezs (st_of (grid_parallel O e n g a auto rez)).
  Proof.
    intros H. unfold grid_parallel. cbv zeta. set (r := oloop _ _ _).
    assert (Hr : distinct_rezs (st_of r).1.1).
    { apply (oloop_inv _ _ (fun s => distinct_rezs s.1.1)); [done|]. intros k [[h c] js] _ Hh. cbn [fst] in Hh. unfold parallel_step.
      destruct (tile_at h k); [|done]. destruct (skip_tile _ _ _ _); [by apply rezs_note|]. cbv zeta. destruct (border_for _ _ _ _ _); [|done].
      destruct (_ =? _)%nat; [|done]. cbn [st_of fst]. by apply rezs_jobs. }
    destruct (exn_of r); [done|]. set (r2 := match (st_of r).2 with [] => _ | _ => _ end).
    assert (H2 : distinct_rezs (st_of r2)) by (unfold r2; destruct (st_of r).2; [done|by apply rezs_jobs]).
    destruct (exn_of r2); [done|]. apply rezs_finish.
  Qed.
  Lemma rezs_grid g a dask : distinct_rezs g -> distinct_rezs (st_of (g_grid O e g a dask)).
  Proof.
    intros H. unfold g_grid. cbv zeta. destruct (_ && _); [done|]. destruct (g_is_empty _); [done|]. destruct (match ga_rez a with Some _ => _ | None => _ end); [|by destruct (ga_rez a)].
    destruct dask; [destruct (m_ntiles _); [apply rezs_parallel|]|apply rezs_regular]; apply NoDup_nil_2.
  Qed.
  Lemma rezs_history g0 g ct seen ok : distinct_rezs g0 -> grid_history O e g0 g ct seen ok -> distinct_rezs g.
  Proof.
    intros H0. induction 1 as [| | | | | |g ct seen ok layers rez nodata up g' o H IH E]; try done.
    - destruct (add_attrs O g (GoodData d) a) as [Hm _]. unfold distinct_rezs. apply (f_equal (fun x => x.1.1.1)) in Hm. cbn in Hm. by rewrite Hm.
    - destruct (add_attrs O g inp a) as [Hm _]. unfold distinct_rezs. apply (f_equal (fun x => x.1.1.1)) in Hm. cbn in Hm. by rewrite Hm.
    - destruct (remove_attrs O g c) as [Hm _]. unfold distinct_rezs. apply (f_equal (fun x => x.1.1.1)) in Hm. cbn in Hm. by rewrite Hm.
    - destruct (remove_attrs O g c) as [Hm _]. unfold distinct_rezs. apply (f_equal (fun x => x.1.1.1)) in Hm. cbn in Hm. by rewrite Hm.
    - by apply rezs_grid.
    - pose proof (keep_layers O e (fun _ _ => True) (fun _ => I) (fun _ _ _ _ _ => I) (fun _ => True) (fun _ _ _ _ _ _ _ _ _ => I) g layers rez nodata up g' o
        (proj2 (Forall_forall _ _) (fun _ _ => I)) E) as [Hm _ _ _ _ _]. unfold distinct_rezs. by rewrite Hm.
  Qed.
End rezs.
