(** What gridding and querying leave alone: everything but the gridded layers and the attributes that
    describe them. *)
From Verif Require Import Py Nd Numpy Point Bin Algorithms Tile Time Meta Disk Grid GridRun GridQuery Spec.
From Verif Require Import PyFacts NdFacts GridBaseFacts GridPlaceFacts GridInvFacts GridRootFacts.
Open Scope Z_scope.

(** Agreement on everything gridding does not assign. *)
Definition core_meta (m m' : gmeta) : Prop :=
  exists rz alg gr pr, m' = m <| m_rezs := rz |> <| m_algorithm := alg |> <| m_grez := gr |> <| m_params := pr |>.
Lemma core_meta_refl m : core_meta m m.
Proof. exists (m_rezs m), (m_algorithm m), (m_grez m), (m_params m). by destruct m. Qed.
Lemma core_meta_trans a b c : core_meta a b -> core_meta b c -> core_meta a c.
Proof. intros (?&?&?&?&->) (r&al&g&p&->). by exists r, al, g, p. Qed.

Definition opt_rel {T} (R : T -> T -> Prop) (a b : option T) : Prop :=
  match a, b with None, None => True | Some t, Some t' => R t t' | _, _ => False end.
Definition tiles_rel {T} (R : T -> T -> Prop) (a b : option (nd (option T))) : Prop :=
  match a, b with
  | None, None => True
  | Some a, Some b => nrows b = nrows a /\ ncols b = ncols a /\ Forall2 (opt_rel R) (nflat a) (nflat b)
  | _, _ => False
  end.
Record evolve {T} (R : T -> T -> Prop) (g g' : grid T) : Prop := {
  ev_geom : g_geom g' = g_geom g; ev_mask : g_mask g' = g_mask g; ev_disk : g_disk g' = g_disk g;
  ev_meta : core_meta (g_meta g) (g_meta g'); ev_tiles : tiles_rel R (g_tiles g) (g_tiles g') }.

Lemma tile_at_set {T} (g : grid T) k j t : tile_at (set_tile g k (Some t)) j = if decide (k = j) then if decide (k < tiles_size g)%nat then Some t else None else tile_at g j.
Proof.
  unfold tile_at, set_tile, tiles_size. destruct (g_tiles g) as [a|] eqn:E; cbn.
  - destruct (decide (k = j)) as [->|Hne].
    + destruct (decide _).
      * by rewrite list_lookup_insert.
      * rewrite list_insert_ge by lia. rewrite lookup_ge_None_2 by lia. done.
    + by rewrite list_lookup_insert_ne.
  - rewrite E. destruct (decide _); [|done]. by rewrite decide_False by lia.
Qed.

Section evolve.
  Context {T : Type} (O : tile_ops T) (e : env) (R : T -> T -> Prop).
  Context (Rrefl : forall t, R t t) (Rtrans : forall a b c, R a b -> R b c -> R a c).
  Context (Rgrid : forall t a, R t (st_of (op_grid O e t a).1)).
  Context (Rget : forall t l r n u t' o, op_get_layer O e t l r n u = Ok (t', o) -> R t t').
  Context (Rload : forall m t, R t (op_reload O m t)).

  Lemma opt_rel_refl o : opt_rel R o o.
  Proof using Rrefl. destruct o; simpl; auto. Qed.
  Lemma opt_rel_trans a b c : opt_rel R a b -> opt_rel R b c -> opt_rel R a c.
  Proof using Rtrans. destruct a, b, c; simpl; try done. apply Rtrans. Qed.
  Lemma tiles_rel_refl a : tiles_rel R a a.
  Proof using Rrefl.
    destruct a as [a|]; simpl; [|done]. split; [done|]. split; [done|].
    apply Forall2_same_length_lookup. split; [done|]. intros i x y Hx Hy. rewrite Hx in Hy. injection Hy as ->. apply opt_rel_refl.
  Qed.
  Lemma tiles_rel_trans a b c : tiles_rel R a b -> tiles_rel R b c -> tiles_rel R a c.
  Proof using Rtrans.
    destruct a as [a|], b as [b|], c as [c|]; simpl; try done. intros (A1 & A2 & A3) (B1 & B2 & B3).
    split; [congruence|]. split; [congruence|]. eapply Forall2_transitive; [|exact A3|exact B3]. intros x y z. apply opt_rel_trans.
  Qed.
  Lemma evolve_refl g : evolve R g g.
  Proof using Rrefl. split; try done. apply core_meta_refl. apply tiles_rel_refl. Qed.
  Lemma evolve_trans a b c : evolve R a b -> evolve R b c -> evolve R a c.
  Proof using Rtrans.
    intros [] []. split; try congruence. by eapply core_meta_trans. by eapply tiles_rel_trans.
  Qed.
  Lemma evolve_meta g m : core_meta (g_meta g) m -> evolve R g (g <| g_meta := m |>).
  Proof using Rrefl. split; try done. apply tiles_rel_refl. Qed.

  Lemma tiles_size_rel g g' : evolve R g g' -> tiles_size g' = tiles_size g.
  Proof using.
    intros [_ _ _ _ H]. unfold tiles_size. destruct (g_tiles g), (g_tiles g'); simpl in H; try done.
    destruct H as (_ & _ & H). symmetry. by eapply Forall2_length.
  Qed.
  Lemma evolve_set g k t t' : tile_at g k = Some t -> R t t' -> evolve R g (set_tile g k (Some t')).
  Proof using Rrefl.
    unfold tile_at, set_tile. destruct (g_tiles g) as [a|] eqn:E; [|done]. intros Ht HR.
    split; cbn; try done; [apply core_meta_refl|]. rewrite E. cbn. split; [done|]. split; [done|].
    apply Forall2_same_length_lookup. split; [by rewrite insert_length|]. intros i x y Hx Hy.
    destruct (decide (k = i)) as [->|Hne].
    - rewrite list_lookup_insert in Hy by (by eapply lookup_lt_Some). rewrite Hx in Ht. cbn in Ht. by simplify_eq/=.
    - rewrite list_lookup_insert_ne in Hy by done. rewrite Hx in Hy. injection Hy as ->. apply opt_rel_refl.
  Qed.
  Lemma evolve_set_none g k : tile_at g k = None -> evolve R g (set_tile g k None).
  Proof using Rrefl.
    unfold tile_at, set_tile. destruct (g_tiles g) as [a|] eqn:E; [|intros; by apply evolve_refl]. intros Ht.
    split; cbn; try done; [apply core_meta_refl|]. rewrite E. cbn. split; [done|]. split; [done|].
    apply Forall2_same_length_lookup. split; [by rewrite insert_length|]. intros i x y Hx Hy.
    destruct (decide (k = i)) as [->|Hne].
    - rewrite list_lookup_insert in Hy by (by eapply lookup_lt_Some). rewrite Hx in Ht. cbn in Ht. by simplify_eq/=.
    - rewrite list_lookup_insert_ne in Hy by done. rewrite Hx in Hy. injection Hy as ->. apply opt_rel_refl.
  Qed.
  Lemma evolve_save g k m : evolve R g (st_of (save_reload O g k m)).
  Proof using Rrefl Rload.
    unfold save_reload. destruct (g_disk g && op_sr O) eqn:E; [|apply evolve_refl].
    destruct (origin_at g k) as [[x y]|]; [|apply evolve_refl]. cbn. unfold reload_at. rewrite E.
    destruct (tile_at g k) as [t|] eqn:Ht; cbn; [by eapply evolve_set|by apply evolve_set_none].
  Qed.
  Lemma core_meta_rezs m r : core_meta m (m <| m_rezs := r |>).
  Proof using. exists r, (m_algorithm m), (m_grez m), (m_params m). by destruct m. Qed.
  Lemma evolve_note g r : evolve R g (note_rezs g r).
  Proof using Rrefl. apply evolve_meta, core_meta_rezs. Qed.
  Lemma evolve_finish g : evolve R g (finish_grid g).
  Proof using Rrefl. apply evolve_meta, core_meta_rezs. Qed.

  Lemma evolve_step a auto rez g clear k : evolve R g (st_of (grid_step O e a auto rez (g, clear) k)).1.
  Proof using Rrefl Rtrans Rgrid Rload.
    unfold grid_step. destruct (tile_at g k) as [t|] eqn:Ht; [|apply evolve_save].
    destruct (skip_tile O a clear t); [apply evolve_note|]. cbv zeta.
    destruct (border_for O a g k _) as [b|]; [|apply evolve_refl].
    set (ga := GArgs _ _ _ _ _ _ _). pose proof (Rgrid t ga) as HR. destruct (op_grid O e t ga) as [r rz]. cbn [fst] in HR.
    pose proof (evolve_set g k t _ Ht HR) as H1.
    destruct (exn_of r); [exact H1|]. cbn [st_of fst]. eapply evolve_trans; [exact H1|]. eapply evolve_trans; [apply evolve_note|]. apply evolve_save.
  Qed.
  Lemma evolve_regular g a auto rez : evolve R g (st_of (grid_regular O e g a auto rez)).
  Proof using Rrefl Rtrans Rgrid Rload.
    unfold grid_regular. set (r := oloop _ _ _).
    assert (H : evolve R g (st_of r).1).
    { apply (oloop_inv _ _ (fun s => evolve R g s.1)); [apply evolve_refl|]. intros k [g' c] _ H. eapply evolve_trans; [exact H|]. apply evolve_step. }
    destruct (exn_of r); [done|]. cbn [st_of]. eapply evolve_trans; [exact H|apply evolve_finish].
  Qed.

  (** Jobs hold tiles of the grid they were made for. *)
  Definition job_ok (g : grid T) (j : job) : Prop := exists t, tile_at g (j_idx j) = Some t /\ R t (j_tile j).

  Lemma tile_at_evolve (g g' : grid T) k t : evolve R g g' -> tile_at g k = Some t -> exists t', tile_at g' k = Some t' /\ R t t'.
  Proof using.
    intros [_ _ _ _ H]. unfold tile_at. destruct (g_tiles g) as [a|], (g_tiles g') as [b|]; simpl in H; try done.
    destruct H as (_ & _ & H). intros Ht. destruct (nflat a !! k) as [o|] eqn:E; [|done]. cbn in Ht. subst o.
    destruct (Forall2_lookup_l _ _ _ _ _ H E) as (o & Ho & Hr). destruct o as [t'|]; [|done]. rewrite Ho. cbn. eauto.
  Qed.
  (** Storing the results of distinct locations. *)
  Lemma store_results l : forall g, NoDup (map fst l) ->
    (forall k t', (k, t') ∈ l -> exists t, tile_at g k = Some t /\ R t t') ->
    evolve R g (st_of (oloop (store_result O) l g)).
  Proof using Rrefl Rtrans Rload.
    induction l as [|[k t'] l IH]; intros g Hnd Hl; [apply evolve_refl|].
    cbn [oloop]. unfold store_result at 1 2. cbn [fst snd].
    destruct (Hl k t') as (t & Ht & HR); [left|].
    pose proof (evolve_set g k t t' Ht HR) as H1.
    assert (H2 : evolve R g (st_of (save_reload O (set_tile g k (Some t')) k SaveGrid))).
    { eapply evolve_trans; [exact H1|apply evolve_save]. }
    unfold store_result in *. cbn [fst snd] in *.
    destruct (exn_of (save_reload O (set_tile g k (Some t')) k SaveGrid)); [done|]. cbn [st_of].
    apply NoDup_cons in Hnd as [Hni Hnd].
    eapply evolve_trans; [exact H2|]. apply IH; [done|].
    intros k2 t2 Hin. destruct (Hl k2 t2) as (u & Hu & HRu); [by right|].
    assert (k <> k2). { intros ->. apply Hni. by apply (elem_of_list_fmap_1 fst _ (k2, t2)). }
    exists u. split; [|done].
    unfold save_reload. destruct (g_disk _ && op_sr O); [|cbn; rewrite tile_at_set; by rewrite decide_False].
    destruct (origin_at _ k) as [[]|]; cbn; [|rewrite tile_at_set; by rewrite decide_False].
    set (g1 := set_tile g k (Some t')). assert (E : tile_at g1 k2 = Some u) by (unfold g1; rewrite tile_at_set; by rewrite decide_False).
    unfold set_tile at 1. destruct (g_tiles g1) eqn:E1; [|done]. unfold tile_at in *. cbn. rewrite E1 in E.
    by rewrite list_lookup_insert_ne.
  Qed.

  Lemma evolve_jobs g js : NoDup (map j_idx js) -> Forall (job_ok g) js -> evolve R g (st_of (run_jobs O e g js)).
  Proof using Rrefl Rtrans Rgrid Rload.
    intros Hnd Hjs. unfold run_jobs. cbv zeta. destruct (first_exn _); [apply evolve_refl|].
    set (l := zip _ _).
    assert (H : evolve R g (st_of (oloop (store_result O) l g))).
    { apply store_results.
      - unfold l. assert (E : forall {A B} (l1 : list A) (l2 : list B), length l1 = length l2 -> map fst (zip l1 l2) = l1).
        { induction l1 as [|? ? IHl]; intros [|]; cbn; try done. intros [=]. by rewrite IHl. }
        rewrite E; [done|]. by rewrite !map_length.
      - intros k t' Hin. unfold l in Hin. rewrite map_map in Hin.
        apply elem_of_list_lookup in Hin as [i Hi]. apply lookup_zip_with_Some in Hi as (k0 & t0 & Heq & H1 & H2). simplify_eq/=.
        change (map j_idx js) with (j_idx <$> js) in H1. rewrite list_lookup_fmap in H1. destruct (js !! i) as [j|] eqn:Ej; [|done]. cbn in H1. injection H1 as <-.
        match type of H2 with map ?f _ !! _ = _ => change (map f js) with (f <$> js) in H2 end.
        rewrite list_lookup_fmap, Ej in H2. cbn in H2. injection H2 as <-.
        rewrite Forall_lookup in Hjs. destruct (Hjs _ _ Ej) as (t & Ht & HR). exists t. split; [done|].
        eapply Rtrans; [exact HR|apply Rgrid]. }
    destruct (exn_of (oloop _ l g)); [exact H|]. cbn. eapply evolve_trans; [exact H|apply evolve_note].
  Qed.

  Lemma evolve_parallel n g a auto rez : evolve R g (st_of (grid_parallel O e n g a auto rez)).
  Proof using Rrefl Rtrans Rgrid Rload.
    unfold grid_parallel. set (f := parallel_step O e n a auto rez).
    (* the jobs waiting are for earlier locations, each once, with the tiles of the grid *)
    destruct (oloop_both f (seq 0 (tiles_size g))
      (fun dn s => evolve R g s.1.1 /\ NoDup (map j_idx s.2) /\ (forall j, j ∈ s.2 -> j_idx j ∈ dn) /\ Forall (job_ok s.1.1) s.2)
      (fun s => evolve R g s.1.1) (g, ga_clear a, [])) as [HQ HI].
    { cbn. split; [apply evolve_refl|]. split; [apply NoDup_nil_2|]. split; [|constructor]. intros j Hj. by apply not_elem_of_nil in Hj. }
    { tauto. }
    { intros dn k rest [[g' clear] js] Hseq (H1 & H2 & H3 & H4). cbn [fst snd] in *. unfold f, parallel_step.
      assert (Hk : k ∉ dn).
      { pose proof (NoDup_seq 0 (tiles_size g)) as Hn. rewrite <- NoDup_ListNoDup in Hn || idtac. rewrite Hseq in Hn.
        apply NoDup_app in Hn as (_ & Hn & _). intros Hd. apply (Hn _ Hd). left. }
      assert (Hin : forall j, j ∈ js -> j_idx j ∈ dn ++ [k]) by (intros j Hj; apply elem_of_app; left; by apply H3).
      destruct (tile_at g' k) as [t|] eqn:Ht.
      2:{ cbn. split; [done|]. intros _. done. }
      assert (Hnote : forall rs, Forall (job_ok (note_rezs g' rs)) js) by (intros rs; exact H4).
      destruct (skip_tile O a clear t).
      { cbn. assert (evolve R g (note_rezs g' (op_rezs O t))) by (eapply evolve_trans; [exact H1|apply evolve_note]).
        split; [done|]. intros _. split; [done|]. split; [done|]. split; [done|]. apply Hnote. }
      destruct (border_for O a g' k _) as [b|]; [|cbn; split; [done|]; intros; done].
      set (j := Job _ _ _). set (js' := js ++ [j]).
      assert (Hnd : NoDup (map j_idx js')).
      { unfold js'. rewrite map_app. apply NoDup_app. split; [done|]. cbn. split; [|apply NoDup_singleton].
        intros i Hi ->%elem_of_list_singleton. apply elem_of_list_fmap in Hi as (j' & Hj' & Hi). apply Hk. rewrite Hj'. by apply H3. }
      assert (Hok : Forall (job_ok g') js').
      { apply Forall_app. split; [done|]. apply Forall_singleton. by exists t. }
      destruct (length js' =? n)%nat.
      - cbn [st_of fst snd exn_of]. assert (evolve R g (st_of (run_jobs O e g' js'))) by (eapply evolve_trans; [exact H1|by apply evolve_jobs]).
        split; [done|]. intros _. split; [done|]. split; [apply NoDup_nil_2|]. split; [|constructor]. intros j' Hj. by apply not_elem_of_nil in Hj.
      - cbn. split; [done|]. intros _. split; [done|]. split; [done|]. split; [|done].
        intros j' [Hj|Hj]%elem_of_app; [by apply Hin|]. apply elem_of_list_singleton in Hj as ->. apply elem_of_app. right. left. }
    set (r := oloop f _ _) in *. destruct (exn_of r) eqn:E; [exact HQ|]. destruct (HI eq_refl) as (H1 & H2 & _ & H4).
    set (r2 := match (st_of r).2 with [] => _ | _ => _ end).
    assert (Hr2 : evolve R g (st_of r2)).
    { unfold r2. destruct (st_of r).2 as [|j js] eqn:Ej; [done|]. eapply evolve_trans; [exact H1|]. apply evolve_jobs; done. }
    destruct (exn_of r2); [done|]. cbn [st_of]. eapply evolve_trans; [exact Hr2|apply evolve_finish].
  Qed.

  Lemma evolve_grid g a dask : evolve R g (st_of (g_grid O e g a dask)).
  Proof using Rrefl Rtrans Rgrid Rload.
    unfold g_grid. destruct (_ && _ && _); [apply evolve_refl|]. cbv zeta.
    set (m1 := g_meta g <| m_algorithm := _ |> <| m_grez := _ |> <| m_params := _ |>).
    assert (C1 : core_meta (g_meta g) m1).
    { exists (m_rezs (g_meta g)). eexists _, _, _. subst m1. by destruct (g_meta g). }
    destruct (g_is_empty _); [by apply evolve_meta|].
    set (g2 := match ga_rez a with Some _ => g <| g_meta := m1 |> | None => _ end).
    assert (E2 : evolve R g g2).
    { unfold g2. destruct (ga_rez a); [by apply evolve_meta|]. apply (evolve_meta g (m1 <| m_grez := RezAuto (ga_mode a) |>)).
      eapply core_meta_trans; [exact C1|]. exists (m_rezs m1), (m_algorithm m1), (RezAuto (ga_mode a)), (m_params m1). by destruct m1. }
    destruct (match ga_rez a with Some r => Ok (Some r) | None => _ end) as [rez|]; [|done].
    set (g3 := g2 <| g_meta := _ |>).
    assert (E3 : evolve R g g3) by (eapply evolve_trans; [exact E2|]; apply evolve_meta, core_meta_rezs).
    eapply evolve_trans; [exact E3|]. destruct dask; [|apply evolve_regular]. destruct (m_ntiles (g_meta g3)); [apply evolve_parallel|apply evolve_refl].
  Qed.

  Lemma read_layers_rel layers r nodata up : forall t td, read_layers O e t layers r nodata up = Ok td -> R t td.1.
  Proof using Rrefl Rtrans Rget.
    intros t td. unfold read_layers.
    assert (H : forall l acc, (forall ta, acc = Ok ta -> R t ta.1) ->
      forall td, foldl (fun acc lyr => let* ta := acc in let* ro := op_get_layer O e ta.1 lyr r nodata up in
             Ok (ro.1, match ro.2 with Some a => dset ta.2 lyr a | None => ta.2 end)) acc l = Ok td -> R t td.1).
    { induction l as [|y l IH]; intros acc Hacc td' Htd; [by apply Hacc|]. cbn [foldl] in Htd. eapply IH; [|exact Htd].
      intros ta Hta. destruct acc as [ta0|]; [|done]. cbn [rbind] in Hta.
      destruct (op_get_layer O e ta0.1 y r nodata up) as [[t' o]|] eqn:E; [|done]. cbn [rbind] in Hta. injection Hta as <-. cbn.
      eapply Rtrans; [by apply Hacc|]. by eapply Rget. }
    apply (H layers (Ok (t, []))). intros ta [= <-]. apply Rrefl.
  Qed.

  Lemma get_tile_data_evolve g k r layers nodata up gt :
    get_tile_data O e g k r layers nodata up = Ok gt -> evolve R g gt.1.
  Proof using Rrefl Rtrans Rget.
    unfold get_tile_data. destruct (option_map ncols (g_tiles g)) as [cols|]; [|done]. cbn [rofopt rbind].
    destruct (exact_div _ _) as [n|]; [|done]. cbn [rbind]. destruct (tile_at g k) as [t|] eqn:Ht; [|done]. cbn [rofopt rbind].
    destruct (read_layers O e t layers r nodata _) as [td|] eqn:E; [|done]. cbn [rbind]. intros [= <-]. cbn.
    eapply evolve_set; [done|]. by eapply read_layers_rel.
  Qed.

  Lemma evolve_query g layers rez nodata up g' o :
    g_get_layers_by_name O e g layers rez nodata up = Ok (g', o) -> evolve R g g'.
  Proof using Rrefl Rtrans Rget.
    unfold g_get_layers_by_name. destruct (g_no_grid O g) as [[]|]; [done| |done]. cbn [rbind].
    destruct (pick_rez g rez) as [r|]; [|done]. cbn [rbind]. destruct (rmap _ layers) as [data|]; [|done]. cbn [rbind].
    assert (H : forall l acc, (forall s, acc = Ok s -> evolve R g s.1.1) ->
      forall s, foldl (layer_step O e r layers nodata up) acc l = Ok s -> evolve R g s.1.1).
    { induction l as [|k l IH]; intros acc Hacc s Hs; [by apply Hacc|]. cbn [foldl] in Hs. eapply IH; [|exact Hs].
      intros s' Hs'. unfold layer_step in Hs'. destruct acc as [[[g0 d0] f0]|]; [|done]. cbn [rbind] in Hs'.
      destruct (tile_at g0 k) as [t|]; [|injection Hs' as <-; by apply (Hacc (g0, d0, f0))].
      destruct (get_tile_data O e g0 k r layers nodata up) as [gt|] eqn:E; [|done]. cbn [rbind] in Hs'.
      destruct (blit_all _ _ _ _ _) as [d'|]; [|done]. cbn [rbind] in Hs'. injection Hs' as <-. cbn.
      eapply evolve_trans; [by apply (Hacc (g0, d0, f0))|]. by eapply get_tile_data_evolve. }
    destruct (foldl _ _ _) as [s|] eqn:E; [|done]. cbn [rbind]. intros [= <- _].
    eapply H; [|exact E]. intros s0 [= <-]. cbn. apply evolve_refl.
  Qed.
End evolve.
