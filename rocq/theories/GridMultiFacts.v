(** Facts about queries of several layers, chunks of tiles and totals over tiles. *)
From Coq Require Import Lqa.
From Verif Require Import Py Nd Numpy Point Bin Algorithms Tile Time Meta Disk Grid GridRun GridQuery GridOps Spec TileExec GridExec PyFacts NdFacts NumpyFacts AlgFacts BinFacts
  MiscFacts TileFacts TileGridFacts TileSpecFacts TileRunFacts TileHistFacts ShoalFacts TilePropFacts TileQueryFacts GridBaseFacts GridPlaceFacts GridInvFacts GridRootFacts
  GridEvolveFacts GridSrFacts GridPropFacts GridHistFacts GridRunFacts GridCleanFacts GridUpdateFacts GridDensityFacts GridFlagFacts GridLayerFacts GridReadFacts GridAnswerFacts GridTrimFacts.
Open Scope Z_scope.
Local Ltac Zify.zify_post_hook ::= Z.div_mod_to_equations.

(** ** Several layers *)
(** A tile has none of the layers, or each of them with the shape of the tile. *)
Definition all_or_none {T} (O : tile_ops T) (e : env) (r : Z) (nodata : cell) (u : bool) (n : nat) (ls : list string) (t : T) : Prop :=
  (forall l, l ∈ ls -> op_get_layer O e t l r nodata u = Ok (t, None)) \/
  (forall l, l ∈ ls -> exists a, op_get_layer O e t l r nodata u = Ok (t, Some a) /\ shape_is a n n).
Definition shown {T} (O : tile_ops T) (e : env) (r : Z) (nodata : cell) (u : bool) (t : T) (l : string) : arr :=
  match op_get_layer O e t l r nodata u with Ok (_, Some a) => a | _ => nd_full 0 0 None end.
Lemma dset_fresh {A} (d : dict string A) k v : k ∉ dkeys d -> dset d k v = d ++ [(k, v)].
Proof.
  induction d as [|[k' v'] d IH]; [done|]. cbn. intros H. apply not_elem_of_cons in H as [H1 H2]. rewrite decide_False by congruence. by rewrite IH.
Qed.
Section multi.
  Context {T : Type} (O : tile_ops T) (e : env) (r : Z) (nodata : cell) (u : bool) (n : nat).
  Lemma multi_read t ls : NoDup ls -> (forall l, l ∈ ls -> exists a, op_get_layer O e t l r nodata u = Ok (t, Some a) /\ shape_is a n n) ->
    read_layers O e t ls r nodata u = Ok (t, map (fun l => (l, shown O e r nodata u t l)) ls).
  Proof.
    intros Hnd HT. unfold read_layers.
    assert (G : forall todo did, ls = did ++ todo ->
      foldl (fun acc lyr => let* ta := acc in let* ro := op_get_layer O e ta.1 lyr r nodata u in
             Ok (ro.1, match ro.2 with Some a => dset ta.2 lyr a | None => ta.2 end)) (Ok (t, map (fun l => (l, shown O e r nodata u t l)) did)) todo
      = Ok (t, map (fun l => (l, shown O e r nodata u t l)) ls)).
    { induction todo as [|l todo IH]; intros did E; [by rewrite E, app_nil_r|]. cbn [foldl rbind fst snd].
      destruct (HT l) as (a & Ha & _); [rewrite E; apply elem_of_app; right; left|]. rewrite Ha. cbn [rbind fst snd]. rewrite dset_fresh.
      - specialize (IH (did ++ [l])). rewrite map_app in IH. cbn [map] in IH. unfold shown at 2 in IH. rewrite Ha in IH. apply IH. rewrite E, <- app_assoc. done.
      - unfold dkeys. rewrite <- list_fmap_compose. assert (Hm : (fst ∘ (fun l => (l, shown O e r nodata u t l)) <$> did) = did) by (apply list_fmap_id). rewrite Hm.
        rewrite E in Hnd. apply NoDup_app in Hnd as (_ & Hnd' & _). intros Hin. by apply (Hnd' l Hin), elem_of_list_here. }
    by apply (G ls []).
  Qed.
  Lemma none_read t ls : (forall l, l ∈ ls -> op_get_layer O e t l r nodata u = Ok (t, None)) -> read_layers O e t ls r nodata u = Ok (t, []).
  Proof.
    unfold read_layers. induction ls as [|l ls IH]; intros H; [done|]. cbn [foldl rbind fst snd].
    rewrite H by left. cbn [rbind fst snd]. apply IH. intros l' Hl'. apply H. by right.
  Qed.
End multi.
Section multi2.
  Context {T : Type} (O : tile_ops T) (e : env) (g : grid T) (r : Z) (ls : list string) (nodata : cell) (up : bool) (nx ny n : nat).
  Notation u := (eff_up (g_meta g) up).
  Context (Hnd : NoDup ls) (HB : boxed g r nx ny n) (Hg : g_no_grid O g = Ok false).
  Context (HT : forall k t, tile_at g k = Some t -> all_or_none O e r nodata u n ls t).

  Lemma multi_found k : match tile_at g k with
    | Some t => (found O e g r ls nodata up k = [] /\ forall l, l ∈ ls -> op_get_layer O e t l r nodata u = Ok (t, None)) \/
        (found O e g r ls nodata up k = map (shown O e r nodata u t) ls /\
         forall l, l ∈ ls -> exists a, op_get_layer O e t l r nodata u = Ok (t, Some a) /\ shape_is a n n)
    | None => found O e g r ls nodata up k = [] end.
  Proof using HT Hnd.
    unfold found, tile_found. destruct (tile_at g k) as [t|] eqn:Ht; [|done]. destruct (HT k t Ht) as [H|H]; [left|right]; (split; [|done]).
    - by rewrite (none_read O e r nodata u t ls H).
    - rewrite (multi_read O e r nodata u n t ls Hnd H). cbn [snd]. rewrite map_map. done.
  Qed.
  Lemma multi_query : ls <> [] -> exists o, g_get_layers_by_name O e g ls (Some r) nodata up = Ok (g, o) /\
    match o with
    | Some arrs => arrs = map (assembled O e g r ls nodata up nx ny n (ny * nx)) (seq 0 (length ls)) /\
        exists k t, tile_at g k = Some t /\ forall l, l ∈ ls -> exists a, op_get_layer O e t l r nodata u = Ok (t, Some a) /\ shape_is a n n
    | None => forall k t, tile_at g k = Some t -> forall l, l ∈ ls -> op_get_layer O e t l r nodata u = Ok (t, None)
    end.
  Proof using All.
    intros Hne. destruct (layers_query O e g r ls nodata up nx ny n HB Hg) as [Q1 Q2]. cbv zeta in *.
    assert (HS : forall k, (k < ny * nx)%nat -> reads O e g r ls nodata up k /\ shaped O e g r ls nodata up n k).
    { intros k _. split.
      - unfold reads. destruct (tile_at g k) as [t|] eqn:Ht; [|done]. destruct (HT k t Ht) as [H|H].
        + rewrite (none_read O e r nodata u t ls H). eauto.
        + rewrite (multi_read O e r nodata u n t ls Hnd H). eauto.
      - intros a. pose proof (multi_found k) as H. destruct (tile_at g k) as [t|] eqn:Ht; [|rewrite H; by intros ?%not_elem_of_nil].
        destruct H as [[-> _]|[-> H]]; [by intros ?%not_elem_of_nil|]. intros (l & -> & Hl)%elem_of_list_fmap. destruct (H l Hl) as (b & Hb & _ & ? & ?).
        unfold shown. by rewrite Hb. }
    destruct (proj1 Q1 HS) as [p Hp]. destruct (Q2 p Hp) as (s & [M1 M2 M3 M4 M5 M6 M7 M8 _ _] & ->).
    pose proof (bx_tiles _ _ _ _ _ HB) as (ta & Ta & Tr & Tc & Tl).
    assert (Hs : s.1.1 = g).
    { apply grid_ext; try done.
      - rewrite M7, Ta. cbn. congruence.
      - rewrite M5, Ta. cbn. congruence.
      - rewrite M6. unfold tiles_size. by rewrite Ta.
      - intros k. rewrite M8. case_bool_decide; [|done]. unfold after. destruct (tile_at g k) as [t|] eqn:Ht; [|done].
        destruct (HT k t Ht) as [H'|H'].
        + by rewrite (none_read O e r nodata u t ls H').
        + by rewrite (multi_read O e r nodata u n t ls Hnd H'). }
    rewrite Hs in Hp. eexists. split; [exact Hp|]. destruct (any _ _ _ _ _ _ _ _) eqn:E; [split; [done|]|].
    - unfold any in E. apply existsb_exists in E as (k & _ & Hk). pose proof (multi_found k) as H. destruct (tile_at g k) as [t|] eqn:Ht; [|by rewrite H in Hk].
      destruct H as [[H _]|[_ H]]; [by rewrite H in Hk|]. by exists k, t.
    - intros k t Ht. pose proof (multi_found k) as H. rewrite Ht in H. destruct H as [[_ H]|[H _]]; [done|]. exfalso.
      assert (Hk : (k < ny * nx)%nat). { apply tile_at_size in Ht. unfold tiles_size in Ht. rewrite Ta, Tl in Ht. done. }
      unfold any in E. assert (X : existsb (fun k => negb (bool_decide (length (found O e g r ls nodata up k) = 0%nat))) (seq 0 (ny * nx)) = true); [|congruence].
      apply existsb_exists. exists k. split; [apply in_seq; lia|]. rewrite H. by destruct ls.
  Qed.
End multi2.

(** The answer to several layers is the list of the answers to each. *)
Lemma multi_single {T} (O : tile_ops T) e (g : grid T) r ls nodata up nx ny n :
  NoDup ls -> ls <> [] -> boxed g r nx ny n -> g_no_grid O g = Ok false ->
  (forall k t, tile_at g k = Some t -> all_or_none O e r nodata (eff_up (g_meta g) up) n ls t) ->
  exists o, g_get_layers_by_name O e g ls (Some r) nodata up = Ok (g, o) /\
  match o with
  | Some arrs => Forall2 (fun l a => g_get_layers_by_name O e g [l] (Some r) nodata up = Ok (g, Some [a])) ls arrs
  | None => Forall (fun l => g_get_layers_by_name O e g [l] (Some r) nodata up = Ok (g, None)) ls
  end.
Proof.
  intros Hnd Hne HB Hg HT. destruct (multi_query O e g r ls nodata up nx ny n Hnd HB Hg HT Hne) as (o & Hq & Ho). exists o. split; [done|].
  assert (H1 : forall l, l ∈ ls -> forall k t, tile_at g k = Some t -> all_or_none O e r nodata (eff_up (g_meta g) up) n [l] t).
  { intros l Hl k t Ht. destruct (HT k t Ht) as [H|H]; [left|right]; intros l' ->%elem_of_list_singleton; by apply H. }
  assert (H2 : forall l, l ∈ ls -> exists o, g_get_layers_by_name O e g [l] (Some r) nodata up = Ok (g, o) /\
    match o with
    | Some arrs => arrs = [assembled O e g r [l] nodata up nx ny n (ny * nx) 0] /\
        exists k t, tile_at g k = Some t /\ exists a, op_get_layer O e t l r nodata (eff_up (g_meta g) up) = Ok (t, Some a)
    | None => forall k t, tile_at g k = Some t -> op_get_layer O e t l r nodata (eff_up (g_meta g) up) = Ok (t, None) end).
  { intros l Hl. destruct (multi_query O e g r [l] nodata up nx ny n (NoDup_singleton l) HB Hg (H1 l Hl)) as (o1 & Q1 & O1); [done|]. exists o1. split; [done|].
    destruct o1 as [arrs|].
    - destruct O1 as (-> & k & t & Ht & H). split; [done|]. exists k, t. split; [done|]. destruct (H l) as (a & Ha & _); [by left|]. by exists a.
    - intros k t Ht. apply (O1 k t Ht). by left. }
  destruct o as [arrs|].
  - destruct Ho as (-> & k0 & t0 & Ht0 & Hall). apply Forall2_fmap_r. apply Forall2_same_length_lookup. split; [by rewrite seq_length|].
    intros i l j Hl Hj. apply lookup_seq in Hj as [Hj Hi]. rewrite Nat.add_0_l in Hj. subst j.
    pose proof (elem_of_list_lookup_2 _ _ _ Hl) as Hin. destruct (H2 l Hin) as (o1 & Q1 & O1). destruct o1 as [a1|].
    + destruct O1 as [-> _]. rewrite Q1. do 4 f_equal. unfold assembled. apply nd_init_ext. intros R C HR HC. cbv zeta. case_bool_decide; [|unfold fill_of; rewrite Hl; done].
      set (k := (R / n * nx + C / n)%nat). pose proof (multi_found O e g r ls nodata up n Hnd HT k) as F1. pose proof (multi_found O e g r [l] nodata up n (NoDup_singleton l) (H1 l Hin) k) as F2.
      unfold fill_of. rewrite Hl. destruct (tile_at g k) as [t|]; [|by rewrite F1, F2].
      destruct F1 as [[-> F1]|[-> F1]], F2 as [[-> F2]|[-> F2]]; [done|..].
      * exfalso. destruct (F2 l) as (b & Hb & _); [by left|]. rewrite (F1 l Hin) in Hb. discriminate Hb.
      * exfalso. destruct (F1 l Hin) as (b & Hb & _). rewrite (F2 l ltac:(by left)) in Hb. discriminate Hb.
      * assert (X : map (shown O e r nodata (eff_up (g_meta g) up) t) ls !! i = Some (shown O e r nodata (eff_up (g_meta g) up) t l))
          by (pose proof (list_lookup_fmap (shown O e r nodata (eff_up (g_meta g) up) t) ls i) as X; by rewrite Hl in X).
        by rewrite X.
    + exfalso. destruct (Hall l Hin) as (a & Ha & _). rewrite (O1 k0 t0 Ht0) in Ha. discriminate Ha.
  - apply Forall_forall. intros l Hl. destruct (H2 l Hl) as (o1 & Q1 & O1). destruct o1 as [a1|]; [|done]. exfalso.
    destruct O1 as (_ & k & t & Ht & a & Ha). rewrite (Ho k t Ht l Hl) in Ha. discriminate Ha.
Qed.

(** A tile without layers at [r], or with values in each of them. *)
Lemma sr_all_or_none e (t : tile) r nodata u n ls : t_is_empty t = false -> Forall (fun l => l ∈ std_layers) ls ->
  (dget (t_cells t) r = None \/ forall l, l ∈ ls -> exists a, layer_of t r l = Some a /\ shape_is a n n /\ all_nan a = false) -> all_or_none sr_ops e r nodata u n ls t.
Proof.
  intros He Hls [Hd|H]; [left|right]; intros l Hl; cbn [op_get_layer sr_ops]; rewrite std_query by (by apply (proj1 (Forall_forall _ _) Hls)); rewrite He.
  - by rewrite Hd.
  - destruct (H l Hl) as (a & Ha & (S1 & S2 & S3) & Hna). unfold layer_of in Ha. destruct (dget (t_cells t) r) as [d|]; [|done]. rewrite Ha. cbn [rofopt rbind].
    unfold present_layer. rewrite Hna. eexists. split; [reflexivity|]. destruct (bool_decide _ && _); split; try done; try by apply nd_map_wf. by apply nd_map_wf, nd_map_wf.
Qed.

(** No tile of a grid is empty. *)
Lemma placed_points {T} (m0 : gmeta) (rep : T -> Z -> Z -> content -> Prop) g ct lx ly nx ny a k t : placed m0 rep g ct lx ly nx ny a -> tile_at g k = Some t ->
  exists x y ct', rep t x y ct' /\ all_points ct' <> [].
Proof.
  intros P Ht. destruct (placed_origin _ _ _ _ _ _ _ _ _ _ _ P Ht) as (x & y & Ho).
  pose proof (placed_loc _ _ _ _ _ _ _ _ _ _ _ _ P Ho) as H. rewrite Ht in H. destruct H as [H1 H2]. exists x, y. eexists. split; [exact H2|].
  rewrite all_points_nil_iff; [done|apply content_in_nonempty].
Qed.
Lemma root_points {T} (m0 : gmeta) (rep : T -> Z -> Z -> content -> Prop) g ct seen ok k t : root_inv m0 rep g ct seen ok -> tile_at g k = Some t ->
  exists x y ct', rep t x y ct' /\ all_points ct' <> [].
Proof.
  intros [_ [(H1 & _)|(_ & lx & ly & nx & ny & a & P & _)]] Ht; [|by eapply placed_points].
  unfold tile_at in Ht. by rewrite H1 in Ht.
Qed.
Lemma rep_nonempty t ct : tile_rep t ct -> all_points ct <> [] -> t_is_empty t = false.
Proof.
  intros HR Hp. pose proof (tr_data _ _ HR) as Hd. unfold t_is_empty, t_points_count. unfold pts in Hd. destruct (t_data t) as [d|]; [|by rewrite <- Hd in Hp].
  cbn in Hd. subst d. by destruct (all_points ct).
Qed.
Lemma sr_nonempty e (P : gargs -> Prop) size b zarr disk g ct k t : 0 < size -> (forall a, P a -> known_args a) ->
  sr_clean e P size b zarr disk g ct -> tile_at g k = Some t -> t_is_empty t = false.
Proof.
  intros Hs HP H Ht.
  destruct (sr_clean_inv e (fun _ _ => True) P size b zarr disk Hs (fun a Pa => known_allows a (HP a Pa)) g ct H) as (_ & seen & ok & HI).
  destruct (root_points _ _ _ _ _ _ _ _ HI Ht) as (x & y & ct1 & HQ & Hne). destruct HQ as [(_ & HR & _) _]. by eapply rep_nonempty.
Qed.
Lemma ncell_exact t r n : 0 < r -> t_size t = Z.of_nat n * r -> ncell t r = n.
Proof. intros Hr Hs. unfold ncell. rewrite Hs, ceil_div_mult by done. lia. Qed.
Lemma good_shape e t r d l a n : good e t -> t_size t = Z.of_nat n * r -> dget (t_cells t) r = Some d -> dget d l = Some a -> shape_is a n n.
Proof.
  intros H Hs Hd Ha. destruct (g_cells _ _ H r d Hd) as (Hr & _ & _ & _ & alg & _ & _ & _ & HS). pose proof (HS l a Ha) as HS'. by rewrite (ncell_exact t r n Hr Hs) in HS'.
Qed.
Lemma sr_multi e (P : gargs -> Prop) size b zarr disk g ct r ls nodata up : 0 < size -> (forall a, P a -> known_args a) ->
  sr_clean e P size b zarr disk g ct -> ct <> [] -> 0 < r -> size mod r = 0 -> g_no_grid sr_ops g = Ok false ->
  ls <> [] -> NoDup ls -> Forall (fun l => l ∈ std_layers) ls ->
  (forall k t d l, tile_at g k = Some t -> dget (t_cells t) r = Some d -> l ∈ ls -> exists a q, dget d l = Some a /\ Some q ∈ nflat a) ->
  exists o, g_get_layers_by_name sr_ops e g ls (Some r) nodata up = Ok (g, o) /\
  match o with
  | Some arrs => Forall2 (fun l a => g_get_layers_by_name sr_ops e g [l] (Some r) nodata up = Ok (g, Some [a])) ls arrs
  | None => Forall (fun l => g_get_layers_by_name sr_ops e g [l] (Some r) nodata up = Ok (g, None)) ls
  end.
Proof.
  intros Hs HP H Hct Hr Hm Hg Hne Hnd Hls HL. destruct (sr_frame _ _ _ _ _ _ _ _ Hs HP H Hct) as (lx & ly & nx & ny & HF).
  set (n := Z.to_nat (size / r)). assert (Hn : size = Z.of_nat n * r). { unfold n. rewrite Z2Nat.id by (apply Z.div_pos; lia). pose proof (Z.div_mod size r). lia. }
  assert (Hn0 : (0 < n)%nat) by (destruct n; lia). clearbody n.
  apply (multi_single sr_ops e g r ls nodata up nx ny n); try done; [by apply (fr_box _ _ _ _ _ _ _ HF)|].
  intros k t Ht. apply sr_all_or_none; [exact (sr_nonempty e P size b zarr disk g ct k t Hs HP H Ht)|done|]. destruct (dget (t_cells t) r) as [d|] eqn:Hd; [|by left]. right. intros l Hl.
  destruct (HL k t d l Ht Hd Hl) as (a & q & Ha & Hq). exists a. unfold layer_of. rewrite Hd. split; [done|].
  destruct (sr_good _ _ _ _ _ _ _ _ _ _ Hs HP H Ht) as (x & y & HG & HA). split.
  - eapply good_shape; [exact HG| |exact Hd|exact Ha]. destruct HA as (_ & _ & HA & _). congruence.
  - destruct (all_nan a) eqn:E; [|done]. unfold all_nan in E. rewrite forallb_forall in E. apply elem_of_list_In, E in Hq. done.
Qed.
