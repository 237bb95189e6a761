(** Exports of loaded grids. *)
From Verif Require Import Py Nd Numpy Point Bin Algorithms Tile Time Meta Disk Grid GridRun GridQuery GridOps Export Views Spec GridExec Store StoreExec SessionSpec
  LoadAnswerSpec LayerNameSpec PyFacts GridRunFacts GridPlaceFacts GridUpdateFacts GridCleanFacts GridSrFacts GridFlagFacts GridEvolveFacts GridReadFacts GridBaseFacts GridSessionFacts GridOwnFacts GridVrSessionFacts LayerNameFacts LoadAnswerFacts.
Open Scope Z_scope.

(** ** The order of the layers of a loaded tile *)
Definition in_order (d : dict string arr) : Prop := exists P : string -> bool, dkeys d = List.filter P stored_layers.
Lemma load_layers_order f p r d : load_layers f p r = Ok d -> in_order d.
Proof.
  intros H. exists (fun n => fs_exists f (p ++ [FCells r n])). revert H. unfold load_layers.
  assert (HG : forall ns acc d0, NoDup (dkeys acc ++ ns) -> foldl (fun acc n => let* l := acc in if fs_exists f (p ++ [FCells r n]) then
      let* a := read_arr f (p ++ [FCells r n]) in Ok (dset l n a) else Ok l) (Ok acc) ns = Ok d0 ->
      dkeys d0 = dkeys acc ++ List.filter (fun n => fs_exists f (p ++ [FCells r n])) ns).
  { induction ns as [|n ns IH]; intros acc d0 Hn; cbn [foldl List.filter rbind]; [intros [= ->]; by rewrite app_nil_r|].
    destruct (fs_exists f (p ++ [FCells r n])).
    - destruct (read_arr f (p ++ [FCells r n])) as [a|x]; cbn [rbind].
      + assert (E : dkeys (dset acc n a) = dkeys acc ++ [n]).
        { rewrite dkeys_dset. rewrite decide_False; [done|]. intros Hr. apply NoDup_app in Hn as (_ & Hn & _). apply (Hn n Hr). left. }
        intros H%IH; [|rewrite E, <- app_assoc; done]. rewrite H, E, <- app_assoc. done.
      + intros H. exfalso. clear -H. induction ns as [|k ns IH]; [done|]. exact (IH H).
    - apply IH. apply NoDup_app in Hn as (N1 & N2 & N3). apply NoDup_cons in N3 as [_ N3]. apply NoDup_app. split; [done|]. split; [|done].
      intros x Hx Hin. apply (N2 x Hx). by right. }
  intros H%HG; [exact H|]. apply (bool_decide_unpack _). vm_compute. exact I.
Qed.
Lemma loop_order f p rezs : forall t t',
  foldl (fun acc r => let* t := acc in let* l := load_layers f p r in let* ex := read_ints f (p ++ [FEdgesX r]) in let* ey := read_ints f (p ++ [FEdgesY r]) in
    Ok (t <| t_cells := dset (t_cells t) r l |> <| t_edges_x := dset (t_edges_x t) r ex |> <| t_edges_y := dset (t_edges_y t) r ey |>)) (Ok t) rezs = Ok t' ->
  (forall r d, dget (t_cells t) r = Some d -> in_order d) -> forall r d, dget (t_cells t') r = Some d -> in_order d.
Proof.
  induction rezs as [|r0 rezs IH]; intros t t'; cbn [foldl rbind]; [intros [= <-]; done|].
  destruct (load_layers f p r0) as [l|x] eqn:El; cbn [rbind].
  2:{ intros H. exfalso. clear -H. induction rezs as [|k ns IH]; [done|]. exact (IH H). }
  destruct (read_ints f (p ++ [FEdgesX r0])) as [ex|x]; cbn [rbind].
  2:{ intros H. exfalso. clear -H. induction rezs as [|k ns IH]; [done|]. exact (IH H). }
  destruct (read_ints f (p ++ [FEdgesY r0])) as [ey|x]; cbn [rbind].
  2:{ intros H. exfalso. clear -H. induction rezs as [|k ns IH]; [done|]. exact (IH H). }
  intros H HO. apply (IH _ _ H). intros r d. cbn. intros Hd. destruct (decide (r0 = r)) as [->|N].
  - rewrite dget_dset_eq in Hd. injection Hd as <-. by eapply load_layers_order.
  - rewrite dget_dset_ne in Hd by done. by eapply HO.
Qed.
Definition ordered (t : tile) : Prop := forall r d, dget (t_cells t) r = Some d -> in_order d.
Lemma load_ordered f t : load_sr_tile f = Ok (Some t) -> ordered t.
Proof.
  unfold load_sr_tile, load_tile. destruct (fs_exists f []); [|done]. destruct (fs_read f ([] ++ [FMeta])) as [[]|]; try done. cbn [saves_points saves_grid default].
  intros (t2 & H2 & H)%rbind_Ok. apply rbind_Ok in H as (t3 & H3 & H). apply rbind_Ok in H as (t4 & H4 & H). injection H as <-.
  apply rbind_Ok in H2 as (d & _ & [= <-]).
  assert (HI : forall rs a b, foldl (fun acc r => let* t := acc in let* idx := read_ints f ([] ++ [FIndices r]) in Ok (t <| t_indices := dset (t_indices t) r idx |>)) (Ok a) rs = Ok b -> t_cells b = t_cells a).
  { induction rs as [|r rs IH]; intros a b; cbn [foldl rbind]; [by intros [= <-]|]. destruct (read_ints f ([] ++ [FIndices r])) as [idx|x]; cbn [rbind].
    - intros H%IH. exact H.
    - intros H. exfalso. clear -H. induction rs as [|k ns IH]; [done|]. exact (IH H). }
  intros r l. rewrite (HI _ _ _ H4). apply (loop_order _ _ _ _ _ H3). intros r0 d0. cbn. intros Hd. discriminate Hd.
Qed.
Lemma rmap_in {A B} (f : A -> res B) l l' y : rmap f l = Ok l' -> y ∈ l' -> exists x, x ∈ l /\ f x = Ok y.
Proof.
  revert l'. induction l as [|a l IH]; intros l'; cbn [rmap]; [intros [= <-] H; by apply elem_of_nil in H|].
  intros (b & Hb & H)%rbind_Ok. apply rbind_Ok in H as (bs & Hbs & [= <-]). intros [->|Hy]%elem_of_cons.
  - exists a. split; [left|done].
  - destruct (IH _ Hbs Hy) as (x & Hx & E). exists x. split; [by right|done].
Qed.
Lemma load_from {T} (one : fs -> res (option T)) f g k t : load_grid one f = Ok g -> tile_at g k = Some t -> exists f', one f' = Ok (Some t).
Proof.
  unfold load_grid. destruct (negb _); [done|]. destruct (fs_read f [FMeta]) as [[]|]; try done.
  intros (gx & _ & H)%rbind_Ok. apply rbind_Ok in H as (gy & _ & H). apply rbind_Ok in H as (ex & _ & H). apply rbind_Ok in H as (ey & _ & H).
  apply rbind_Ok in H as (mask & _ & H). apply rbind_Ok in H as (tiles & Ht & [= <-]). unfold tile_at. cbn. intros Hk.
  destruct (tiles !! k) as [o|] eqn:E; [|done]. cbn in Hk. subst o. apply elem_of_list_lookup_2 in E.
  destruct (rmap_in _ _ _ _ Ht E) as (xy & _ & Hx). eauto.
Qed.
Lemma load_sr_ordered f g k t : load_sr f = Ok g -> tile_at g k = Some t -> ordered t.
Proof. intros H Hk. destruct (load_from _ _ _ _ _ H Hk) as [f' Hf]. by eapply load_ordered. Qed.
Lemma load_vr_ordered f g k sg j t : load_vr f = Ok g -> tile_at g k = Some sg -> tile_at sg j = Some t -> ordered t.
Proof.
  intros H Hk Hj. destruct (load_from _ _ _ _ _ H Hk) as [f' Hf]. unfold load_sub in Hf. destruct (fs_exists f' []); [|done].
  apply rbind_Ok in Hf as (g1 & H1 & [= ->]). by eapply load_sr_ordered.
Qed.

(** ** The names of the layers of a loaded tile *)
Definition stored_names (ns : list string) : list string := List.filter (fun n => bool_decide (n ∈ ns)) stored_layers.
Lemma reload_named ns t t' : named ns t -> reloaded t t' -> ordered t' -> named (stored_names ns) t'.
Proof.
  intros (r & l & Hc & Hl) [HS [Hn _]] HO. assert (HK : dkeys (t_cells t') = [r]).
  { assert (E : forall x, x ∈ dkeys (t_cells t') <-> x = r). { intros x. rewrite (st_rezs _ _ HS), Hc. cbn. apply elem_of_list_singleton. }
    destruct (dkeys (t_cells t')) as [|x [|y xs]]; [exfalso; by apply (not_elem_of_nil r), E|f_equal; apply E; left|].
    exfalso. apply NoDup_cons in Hn as [Hx _]. apply Hx. rewrite (proj1 (E x)) by left. rewrite (proj1 (E y)) by (right; left). left. }
  destruct (t_cells t') as [|[r' l'] [|? ?]] eqn:E; try done. cbn in HK. injection HK as ->. exists r, l'. split; [done|].
  destruct (HO r l') as [P HP]; [rewrite E; cbn; by rewrite decide_True|]. unfold stored_names. rewrite HP. apply List.filter_ext_in.
  intros n Hin. assert (Hd : n ∈ dkeys l' <-> n ∈ ns).
  { pose proof (st_layers _ _ HS r n) as HL. unfold layer_of in HL. rewrite E, Hc in HL. cbn in HL. rewrite !decide_True in HL by done. cbn in HL.
    rewrite <- Hl, <- !dget_is_Some. by rewrite HL. }
  rewrite HP in Hd. destruct (P n) eqn:EP; symmetry; [apply bool_decide_eq_true|apply bool_decide_eq_false]; rewrite <- Hd.
  - apply elem_of_list_In, filter_In. done.
  - intros [_ H]%elem_of_list_In%filter_In. congruence.
Qed.
Definition raster_names (ns : list string) : list string := filter (fun l => l ∈ ["depth"; "vertical_uncertainty"; "total_uncertainty"]) ns.
Lemma raster_stored b d alg tvu thu : alg ∈ ["mean"; "shoalest"; "cube"] -> raster_names (stored_names (given_layers b d alg tvu thu)) = raster_names (given_layers b d alg tvu thu).
Proof. intros H. apply elem_of_list_In in H. cbn in H. destruct b, d, tvu, thu; repeat (destruct H as [<-|H]; [vm_compute; reflexivity|]); done. Qed.
Lemma simple_stored b d alg tvu thu : alg = "mean" \/ alg = "shoalest" -> stored_names (given_layers b d alg tvu thu) = given_layers b d alg tvu thu.
Proof. intros [->| ->]; destruct b, d, tvu, thu; vm_compute; reflexivity. Qed.
Lemma cube_stored b tvu thu : stored_names (given_layers b true "cube" tvu thu) = given_layers b true "cube" tvu thu.
Proof. destruct b, tvu, thu; vm_compute; reflexivity. Qed.
Lemma given_standard b d alg tvu thu l : l ∈ given_layers b d alg tvu thu -> l ∈ standard_layers.
Proof.
  intros H. apply elem_of_list_In in H. unfold given_layers in H. cbn [In] in H.
  destruct H as [<-|[<-|H]]; [destruct b; apply (bool_decide_unpack _); vm_compute; exact I|apply (bool_decide_unpack _); vm_compute; exact I|].
  destruct (String.eqb alg "cube"), d, tvu, thu; cbn in H; repeat (destruct H as [<-|H]; [apply (bool_decide_unpack _); vm_compute; exact I|]); done.
Qed.
Lemma raster_standard ns l : l ∈ raster_names ns -> l ∈ standard_layers.
Proof.
  intros [H _]%elem_of_list_filter. apply elem_of_list_In in H. cbn in H. repeat (destruct H as [<-|H]; [apply (bool_decide_unpack _); vm_compute; exact I|]). done.
Qed.

(** ** Exports of grids that answer alike *)
Section exports.
  Context {T : Type} (O : tile_ops T) (e : env) (g g' : grid T) (Hm : g_meta g' = g_meta g) (HT : tiles_rel (tile_alike O e) (g_tiles g) (g_tiles g')).
  Lemma geotiff_alike up rez mc : raster_names (g_layer_names O g') = raster_names (g_layer_names O g) ->
    rrel (pair_at g g') (export_geotiff O e g up rez mc) (export_geotiff O e g' up rez mc).
  Proof using Hm HT.
    intros HN. unfold raster_names in HN. unfold export_geotiff. rewrite Hm.
    assert (E : raster_layers O g' up = raster_layers O g up) by (unfold raster_layers; rewrite Hm; by rewrite HN). rewrite E.
    assert (Hls : forall ln, raster_layers O g up = Ok ln -> forall l, l ∈ ln.1 -> l ∈ standard_layers).
    { intros ln. unfold raster_layers. set (ls := if m_backscatter (g_meta g) then _ else _).
      assert (H : forall l, l ∈ ls -> l ∈ standard_layers).
      { subst ls. destruct (m_backscatter (g_meta g)); [intros l ->%elem_of_list_singleton; apply (bool_decide_unpack _); vm_compute; exact I|]. intros l. apply raster_standard. }
      destruct (_ && _); [destruct (bool_decide _); [|done]|]; by intros [= <-]. }
    destruct (raster_layers O g up) as [ln|x]; [|done]. cbn [rbind]. specialize (Hls ln eq_refl).
    apply rrel_foldl; [done|done| |by cbn].
    intros [h fs] [h' fs'] r _ (F1 & F2 & F3). cbn [fst snd] in F1, F2, F3. subst h h' fs'. cbn [rbind fst snd].
    eapply rrel_bind; [apply chunks_alike; [by apply kin_same|exact HT|exact Hls]|]. intros [h cs] [h' cs'] (F1 & F2 & F3). cbn [fst snd] in *. subst.
    apply rrel_same. intros l. by cbn.
  Qed.
  Lemma bag_alike rez mc v : raster_names (g_layer_names O g') = raster_names (g_layer_names O g) ->
    rrel (pair_at g g') (export_bag O e g rez mc v) (export_bag O e g' rez mc v).
  Proof using Hm HT.
    intros HN. unfold raster_names in HN. unfold export_bag. rewrite Hm.
    assert (E : bag_layers O g' = bag_layers O g) by (unfold bag_layers; by rewrite HN). rewrite E.
    assert (Hls : forall ln, bag_layers O g = Ok ln -> forall l, l ∈ ln.1 -> l ∈ standard_layers).
    { intros ln. unfold bag_layers. destruct (bool_decide _); [|done]. intros [= <-] l. apply raster_standard. }
    destruct (bag_layers O g) as [ln|x]; [|done]. cbn [rbind]. specialize (Hls ln eq_refl).
    apply rrel_foldl; [done|done| |by cbn].
    intros [h fs] [h' fs'] r _ (F1 & F2 & F3). cbn [fst snd] in F1, F2, F3. subst h h' fs'. cbn [rbind fst snd].
    eapply rrel_bind; [apply chunks_alike; [by apply kin_same|exact HT|exact Hls]|]. intros [h cs] [h' cs'] (F1 & F2 & F3). cbn [fst snd] in *. subst.
    apply rrel_same. intros l. by cbn.
  Qed.
  Lemma csv_alike up rez ns : g_return_layer_names O g = Ok ns -> g_return_layer_names O g' = Ok ns -> (forall l, l ∈ ns -> l ∈ standard_layers) ->
    rrel (pair_at g g') (export_csv O e g up rez) (export_csv O e g' up rez).
  Proof using Hm HT.
    intros N1 N2 Hls. unfold export_csv. rewrite Hm. apply rrel_foldl; [done|done| |by cbn].
    intros [h fs] [h' fs'] r _ (F1 & F2 & F3). cbn [fst snd] in F1, F2, F3. subst h h' fs'. cbn [rbind fst snd]. rewrite N1, N2. cbn [rbind].
    eapply rrel_bind; [apply nodes_alike; [by apply kin_same|exact HT|exact Hls]|]. intros [h [[xs ys] ds]] [h' q] (F1 & F2 & F3). cbn [fst snd] in *. subst.
    apply rrel_same. intros cols. by cbn.
  Qed.
End exports.

(** ** After gridding anew *)
Lemma rel_refine {T} (R R' : T -> T -> Prop) (g g' : grid T) : tiles_rel R (g_tiles g) (g_tiles g') ->
  (forall k t t', tile_at g k = Some t -> tile_at g' k = Some t' -> R t t' -> R' t t') -> tiles_rel R' (g_tiles g) (g_tiles g').
Proof.
  unfold tiles_rel, tile_at. destruct (g_tiles g) as [a|], (g_tiles g') as [a'|]; try done. intros (Hr & Hc & HF) H. split; [done|]. split; [done|].
  apply Forall2_same_length_lookup_2; [by eapply Forall2_length|]. intros k o o' E E'. specialize (H k). rewrite E, E' in H. cbn in H.
  pose proof (Forall2_lookup_lr _ _ _ _ _ _ HF E E') as HR. destruct o, o'; cbn in *; try done. by apply H.
Qed.
Definition both_named (ns : list string) (t t' : tile) : Prop := named ns t /\ named (stored_names ns) t'.
Lemma named_all (g : sr_grid) ns : g_tiles g <> None -> Forall (named ns) (live_tiles g) -> live_tiles g <> [] -> g_layer_names sr_ops g = ns /\ g_return_layer_names sr_ops g = Ok ns.
Proof.
  intros Ht HF Hn. unfold g_return_layer_names, g_layer_names, g_no_grid. destruct (g_tiles g); [|done]. destruct (live_tiles g) as [|t l]; [done|].
  apply Forall_cons in HF as [(r & ly & Hc & Hk) _]. cbn. unfold t_layer_names. rewrite Hc. cbn. by rewrite Hk.
Qed.
Definition names_given (e : env) (b d : bool) (a : gargs) : list string := given_layers b d (ga_alg a) (has_tvu (e_dt e)) (has_thu (e_dt e)).
Lemma rel_some {T} (R : T -> T -> Prop) (g g' : grid T) : tiles_rel R (g_tiles g) (g_tiles g') -> g_tiles g <> None -> g_tiles g' <> None.
Proof. unfold tiles_rel. by destruct (g_tiles g), (g_tiles g'). Qed.
Lemma Forall2_fst {A B} (P : A -> Prop) (R : A -> B -> Prop) l l' : (forall x y, R x y -> P x) -> Forall2 R l l' -> Forall P l.
Proof. intros H. induction 1; constructor; eauto. Qed.
Lemma Forall2_snd {A B} (P : B -> Prop) (R : A -> B -> Prop) l l' : (forall x y, R x y -> P y) -> Forall2 R l l' -> Forall P l'.
Proof. intros H. induction 1; constructor; eauto. Qed.

Lemma sr_again e size b zarr g ct a dask F : 0 < size -> sr_sessions e known_args size b zarr g ct -> known_args a -> ga_clear a = true ->
  exn_of (g_grid sr_ops e g a dask) = None -> let h := st_of (g_grid sr_ops e g a dask) in
  exists h', load_sr (fs_run F (ev_of (save_sr_to h))) = Ok h' /\ g_meta h' = g_meta h /\ tiles_rel (tile_alike sr_ops e) (g_tiles h) (g_tiles h') /\
    let ns := names_given e b (g_disk g) a in g_layer_names sr_ops h = ns /\ g_layer_names sr_ops h' = stored_names ns /\
    g_return_layer_names sr_ops h = Ok ns /\ g_return_layer_names sr_ops h' = Ok (stored_names ns).
Proof.
  intros Hs H Ha Hc Hx h. assert (HP : forall a, known_args a -> asked None a) by (intros; by split).
  pose proof (sessions_inv e None known_args size b zarr Hs HP g ct H) as (seen & ok & HI).
  assert (Hne : ct <> []). { intros ->. pose proof HI as [_ [(E & _)|(Hn & _)]]; [|done]. by apply done_tiles in Hx. }
  pose proof (SS_grid e known_args size b zarr g ct a dask H Ha Hx) as H'. fold h in H'.
  pose proof (sessions_inv e None known_args size b zarr Hs HP h ct H') as HS'. pose proof HS' as (seen' & ok' & HI').
  pose proof HI' as [_ [(_ & E & _)|(_ & lx & ly & nx & ny & ar & [P1 P2 P3 P4 P5 P6 P7 P8] & (_ & _ & F3 & F4 & F5) & _)]]; [done|].
  destruct (saved_loads h F lx ly size nx ny ar Hs P1 P2 P3 P4 P5 P6) as (h' & L1 & L2 & L3 & L4 & L5 & L6 & L7).
  { by destruct P7. }
  { intros k t Ht. by eapply sess_tile_plain. }
  { rewrite F3, F4, F5. eauto. }
  exists h'. split; [done|]. split; [done|]. split; [eapply rel_mono; [|exact L7]; intros t t' [HH _]; by apply same_tile_alike|]. intros ns.
  assert (HB : tiles_rel (both_named ns) (g_tiles h) (g_tiles h')).
  { eapply rel_refine; [exact L7|]. intros k t t' Ht Ht' HR. assert (HN : named ns t).
    { refine (sr_named e b g a dask k t (root_origins sr_ops _ _ _ _ _ _ HI) Ha Hc Hx _ Ht). intros u Hu.
      destruct (root_rep _ _ _ _ _ _ _ _ HI Hu) as (x & y & ct' & (((_ & _ & _ & Hb) & _) & _) & _). done. }
    split; [done|]. apply (reload_named ns t t' HN HR). by eapply load_sr_ordered. }
  pose proof (rel_live _ _ _ HB) as HL. destruct (root_live (new_sr_meta 0 0 size b zarr) _ _ _ _ _ Hs HI' Hne) as [t0 Ht0].
  assert (Hn1 : live_tiles h <> []) by (intros E; rewrite E in Ht0; by apply not_elem_of_nil in Ht0).
  assert (Hn2 : live_tiles h' <> []) by (intros E; rewrite E in HL; by inversion HL).
  assert (Hs1 : g_tiles h <> None) by (by rewrite P4).
  destruct (named_all h ns Hs1) as [N1 N2]; [eapply Forall2_fst; [|exact HL]; by intros ?? []|done|].
  destruct (named_all h' (stored_names ns)) as [N3 N4]; [by eapply rel_some|eapply Forall2_snd; [|exact HL]; by intros ?? []|done|]. done.
Qed.

(** A sub-grid and the one loaded, whose tiles have the layers [ns d], for any [d] of the two. *)
Definition either_named (ns : bool -> list string) (t t' : tile) : Prop := exists d, both_named (ns d) t t'.
Record sub_named (ns : bool -> list string) (sg sg' : sr_grid) : Prop := {
  sn_count : exists n, m_ntiles (g_meta sg) = Some n /\ 0 < n;
  sn_meta : g_meta sg' = g_meta sg;
  sn_live : live_tiles sg <> [];
  sn_tiles : Forall2 (either_named ns) (live_tiles sg) (live_tiles sg') }.
Lemma vr_ungridded (g : vr_grid) : g_tiles g <> None -> Forall (fun sg : sr_grid => live_tiles sg <> [] /\ Forall (fun t => t_cells t <> []) (live_tiles sg)) (live_tiles g) ->
  g_no_grid vr_ops g = Ok false.
Proof.
  intros Ht HF. rewrite Forall_forall in HF. apply vr_no_grid_false; [done|]. intros k sg Hk. destruct (HF sg (tile_at_live _ _ _ Hk)) as [H1 H2]. split.
  - destruct (live_tiles sg) as [|t l]; [done|]. exists t. left.
  - intros j t Hj. rewrite Forall_forall in H2. apply H2. by eapply tile_at_live.
Qed.
Lemma named_cells ns t : named ns t -> t_cells t <> [].
Proof. by intros (r & l & -> & _). Qed.
Lemma sub_named_names ns (h h' : vr_grid) : g_tiles h <> None -> g_tiles h' <> None -> live_tiles h <> [] -> Forall2 (sub_named ns) (live_tiles h) (live_tiles h') ->
  exists d, g_layer_names vr_ops h = ns d /\ g_layer_names vr_ops h' = stored_names (ns d) /\
    g_return_layer_names vr_ops h = Ok (ns d) /\ g_return_layer_names vr_ops h' = Ok (stored_names (ns d)).
Proof.
  intros Ht Ht' Hl HF. unfold g_return_layer_names.
  rewrite (vr_ungridded h Ht), (vr_ungridded h' Ht'). 2:{ eapply Forall2_snd; [|exact HF]. intros sg sg' [_ _ H1 H2]. split; [intros E; rewrite E in H2; by inversion H2|].
    eapply Forall2_snd; [|exact H2]. intros t t' (d & _ & H). by eapply named_cells. }
  2:{ eapply Forall2_fst; [|exact HF]. intros sg sg' [_ _ H1 H2]. split; [done|]. eapply Forall2_fst; [|exact H2]. intros t t' (d & H & _). by eapply named_cells. }
  unfold g_layer_names. destruct HF as [|sg sg' l l' [(n & Hn & Hp) Hm H1 H2] HF]; [done|]. cbn [rbind map op_first_layers op_layer_names vr_ops grid_ops].
  rewrite Hm, Hn. destruct (0 <? n) eqn:E0; [|lia]. unfold g_layer_names. destruct H2 as [|t t' k k' (d & (r & ly & Hc & Hk) & (r' & ly' & Hc' & Hk')) H2]; [done|].
  exists d. cbn [map op_first_layers op_layer_names sr_ops]. unfold t_layer_names. rewrite Hc, Hc'. cbn. by rewrite Hk, Hk'.
Qed.

Lemma vr_again e size sub b zarr g ct a dask F : 0 < size -> 0 < sub -> vr_sessions e known_args size sub b zarr g ct -> known_args a -> ga_clear a = true ->
  exn_of (g_grid vr_ops e g a dask) = None -> let h := st_of (g_grid vr_ops e g a dask) in
  (forall k x y, origin_at h k = Some (x, y) -> tile_at h k = None -> fs_exists F [FFolder (NTile x y)] = false) ->
  exists h' d, load_vr (fs_run F (ev_of (save_vr_to h))) = Ok h' /\ g_meta h' = g_meta h /\ tiles_rel (tile_alike vr_ops e) (g_tiles h) (g_tiles h') /\
    let ns := names_given e false d a in g_layer_names vr_ops h = ns /\ g_layer_names vr_ops h' = stored_names ns /\
    g_return_layer_names vr_ops h = Ok ns /\ g_return_layer_names vr_ops h' = Ok (stored_names ns).
Proof.
  intros Hs Hsub H Ha Hc Hx h HF. assert (HP : forall a, known_args a -> asked None a) by (intros; by split).
  pose proof (vr_sessions_inv e None known_args size sub b zarr Hs Hsub HP g ct H) as (seen & ok & HI).
  assert (Hne : ct <> []). { intros ->. pose proof HI as [_ [(E & _)|(Hn & _)]]; [|done]. by apply done_tiles in Hx. }
  pose proof (VS_grid e known_args size sub b zarr g ct a dask H Ha Hx) as H'. fold h in H'.
  pose proof (vr_sessions_inv e None known_args size sub b zarr Hs Hsub HP h ct H') as HS'. pose proof HS' as (seen' & ok' & HI').
  destruct (vsess_save e None size sub b zarr Hs Hsub h ct F HS' Hne HF) as (_ & h' & L1 & _ & _ & L4 & L5 & _).
  set (ns := fun d => names_given e false d a).
  assert (HB : tiles_rel (sub_named ns) (g_tiles h) (g_tiles h')).
  { eapply rel_refine; [exact L5|]. intros k sg sg' Hk Hk' [_ Sm _ St]. destruct (root_rep _ _ _ _ _ _ _ _ HI' Hk) as (x & y & ct' & (HC & _) & Hne').
    destruct HC as [HB [(_ & ? & _)|(_ & a0 & Pl & Hn & _)]]; [done|].
    assert (Hl : exists t, t ∈ live_tiles sg).
    { destruct Pl as [P1 P2 P3 P4 P5 P6 P7 P8]. destruct (slots_live (sub0 size sub b zarr x y) _ Hsub _ _ _ _ _ _ P7 P8) as (j & t & Hj); [rewrite all_points_nil_iff by apply HB; done|].
      exists t. unfold live_tiles. rewrite P4. apply elem_of_list_omap. exists (Some t). split; [|done]. by eapply elem_of_list_lookup_2. }
    destruct Hl as [t Ht]. assert (Hl : live_tiles sg <> []) by (intros E; rewrite E in Ht; by apply not_elem_of_nil in Ht).
    split; [|done|done|].
    - exists (count_live (nflat a0)). split; [done|]. assert (Hg : g_tiles sg = Some a0) by apply Pl.
      destruct (live_tiles sg) as [|u l] eqn:El; [by apply not_elem_of_nil in Ht|]. unfold live_tiles in El. rewrite Hg in El.
      unfold count_live. replace (omap id (nflat a0)) with (u :: l) by exact (eq_sym El). cbn. lia.
    - apply rel_live. eapply rel_refine; [exact St|]. intros j u u' Hj Hj' HR.
      destruct (vr_named e false g a dask k sg j u Ha Hc Hx) as [d HT]; [|done|done|].
      + intros k0 sg0 Hk0. destruct (root_rep _ _ _ _ _ _ _ _ HI Hk0) as (x0 & y0 & ct0 & (HC0 & _) & _). split; [by eapply child_origins|]. intros i v Hv.
        destruct (child_rep _ _ _ _ _ _ _ _ _ HC0 Hv) as (x1 & y1 & ct1 & (((_ & _ & _ & Hb) & _) & _) & _). exact Hb.
      + exists d. split; [exact HT|]. apply (reload_named _ u u' HT HR). by eapply load_vr_ordered. }
  destruct (root_live (new_vr_meta 0 0 size sub b zarr) _ _ _ _ _ Hs HI' Hne) as [t0 Ht0].
  assert (Hs1 : g_tiles h <> None) by (by apply (vr_done_some e (new_vr_meta 0 0 size sub b zarr) _ g ct seen ok a dask Hs HI)).
  destruct (sub_named_names ns h h' Hs1) as (d & N); [by eapply rel_some|intros E; rewrite E in Ht0; by apply not_elem_of_nil in Ht0|by apply rel_live|].
  exists h', d. split; [done|]. split; [done|]. split; [|exact N]. eapply rel_mono; [|exact L5]. intros t t' HH. by apply sub_alike.
Qed.
Lemma stays e b d a : ga_alg a ∈ ["mean"; "shoalest"; "cube"] -> ga_alg a <> "cube" \/ d = true -> stored_names (names_given e b d a) = names_given e b d a.
Proof.
  intros H Hd. unfold names_given. apply elem_of_list_In in H. cbn in H. destruct H as [H|[H|[H|[]]]]; rewrite <- H in *; [apply simple_stored; by left|apply simple_stored; by right|].
  destruct Hd as [Hd| ->]; [done|]. apply cube_stored.
Qed.

(** The same for the own output folder. *)
Lemma own_again e size b zarr g f ct a dask : 0 < size -> own_sessions e known_args size b zarr g f ct -> known_args a -> ga_clear a = true ->
  exn_of (g_grid sr_ops e g a dask) = None -> let h := st_of (g_grid sr_ops e g a dask) in
  exists h', load_sr (fs_run f (ev_of (g_grid sr_ops e g a dask))) = Ok h' /\ g_meta h' = g_meta h /\ tiles_rel (tile_alike sr_ops e) (g_tiles h) (g_tiles h') /\
    let ns := names_given e b true a in g_layer_names sr_ops h = ns /\ g_layer_names sr_ops h' = stored_names ns /\
    g_return_layer_names sr_ops h = Ok ns /\ g_return_layer_names sr_ops h' = Ok (stored_names ns).
Proof.
  intros Hs H Ha Hc Hx h. assert (HP : forall a, known_args a -> asked None a) by (intros; by split).
  pose proof (own_sessions_inv e None known_args size b zarr Hs HP g f ct H) as [HO Hd HS HM]. pose proof HS as (seen & ok & HI).
  assert (Hne : ct <> []). { intros ->. pose proof HI as [_ [(E & _)|(Hn & _)]]; [|done]. by apply done_tiles in Hx. }
  pose proof (OS_grid e known_args size b zarr g f ct a dask H Ha Hx) as H'. fold h in H'.
  pose proof (own_sessions_inv e None known_args size b zarr Hs HP h _ ct H') as HO'. pose proof HO' as [_ _ (seen' & ok' & HI') _].
  destruct (own_load e None size b zarr Hs h _ ct HO' Hne) as (h' & n & q & L1 & _ & _ & _ & _ & L7 & _).
  destruct (own_grid_now e None known_args size b zarr Hs HP g f ct a dask H Ha Hx) as (h2 & M1 & _ & M3). rewrite L1 in M1. injection M1 as <-.
  exists h'. split; [done|]. split; [done|]. split; [eapply rel_mono; [|exact L7]; intros t t' [HH _]; by apply same_tile_alike|]. intros ns.
  assert (HB : tiles_rel (both_named ns) (g_tiles h) (g_tiles h')).
  { eapply rel_refine; [exact L7|]. intros k t t' Ht Ht' HR. assert (HN : named ns t).
    { unfold ns, names_given. rewrite <- Hd. refine (sr_named e b g a dask k t (root_origins sr_ops _ _ _ _ _ _ HI) Ha Hc Hx _ Ht). intros u Hu.
      destruct (root_rep _ _ _ _ _ _ _ _ HI Hu) as (x & y & ct' & (((_ & _ & _ & Hb) & _) & _) & _). done. }
    split; [done|]. apply (reload_named ns t t' HN HR). by eapply load_sr_ordered. }
  pose proof (rel_live _ _ _ HB) as HL. destruct (root_live (new_sr_meta 0 0 size b zarr) _ _ _ _ _ Hs HI' Hne) as [t0 Ht0].
  assert (Hn1 : live_tiles h <> []) by (intros E; rewrite E in Ht0; by apply not_elem_of_nil in Ht0).
  assert (Hn2 : live_tiles h' <> []) by (intros E; rewrite E in HL; by inversion HL).
  assert (Hs1 : g_tiles h <> None) by (intros E; unfold live_tiles in Hn1; rewrite E in Hn1; done).
  destruct (named_all h ns Hs1) as [N1 N2]; [eapply Forall2_fst; [|exact HL]; by intros ?? []|done|].
  destruct (named_all h' (stored_names ns)) as [N3 N4]; [by eapply rel_some|eapply Forall2_snd; [|exact HL]; by intros ?? []|done|]. done.
Qed.
