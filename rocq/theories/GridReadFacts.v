(** Reading standard layers: they leave the grid as it is, and how two queries that differ in the nodata value or the
    sign convention are related. *)
From Verif Require Import Py Nd Numpy Point Bin Algorithms Tile Time Meta Disk Grid GridRun GridQuery GridOps Spec TileExec GridExec.
From Verif Require Import PyFacts NdFacts NumpyFacts AlgFacts TileFacts TileGridFacts TileRunFacts TileHistFacts TileQueryFacts GridBaseFacts GridPlaceFacts
  GridInvFacts GridRootFacts GridEvolveFacts GridSrFacts GridPropFacts GridHistFacts GridRunFacts GridCleanFacts GridUpdateFacts GridFlagFacts GridLayerFacts.
Open Scope Z_scope.

(** ** Arrays related cell by cell *)
Definition arel (R : cell -> cell -> Prop) (a b : arr) : Prop :=
  nd_wf a /\ nrows a = nrows b /\ ncols a = ncols b /\ Forall2 R (nflat a) (nflat b).
Lemma arel_wf R a b : arel R a b -> nd_wf b.
Proof. intros (H1 & H2 & H3 & H4). unfold nd_wf in *. by rewrite <- H2, <- H3, <- H1, <- (Forall2_length _ _ _ H4). Qed.
Lemma arel_get R a b i j : arel R a b -> option_Forall2 R (nd_get a i j) (nd_get b i j).
Proof.
  intros (H1 & H2 & H3 & H4). unfold nd_get. rewrite H2, H3. destruct (_ && _); [|constructor]. by apply Forall2_lookup.
Qed.
Lemma arel_init (R : cell -> cell -> Prop) r c f h : (forall i j, (i < r)%nat -> (j < c)%nat -> R (f i j) (h i j)) -> arel R (nd_init r c f) (nd_init r c h).
Proof.
  intros H. split; [apply nd_init_wf|]. split; [done|]. split; [done|]. apply Forall2_lookup. intros k. cbn.
  rewrite !list_lookup_fmap. destruct (seq 0 (r * c) !! k) as [q|] eqn:E; [|constructor]. cbn. constructor.
  apply lookup_seq in E as [-> Hk]. destruct (flat_div_lt r c k Hk). by apply H.
Qed.
Lemma arel_full (R : cell -> cell -> Prop) r c v w : R v w -> arel R (nd_full r c v) (nd_full r c w).
Proof. intros H. rewrite !nd_full_init. by apply arel_init. Qed.
Lemma arel_map (R : cell -> cell -> Prop) (f h : cell -> cell) (a : arr) : nd_wf a -> (forall x, R (f x) (h x)) -> arel R (nd_map f a) (nd_map h a).
Proof.
  intros Hw H. split; [by apply nd_map_wf|]. split; [done|]. split; [done|]. cbn. apply Forall2_fmap. apply Forall_Forall2_diag. by apply Forall_true.
Qed.
Lemma arel_blit R a b u v r0 r1 c0 c1 a' : arel R a b -> arel R u v -> nd_blit None a r0 r1 c0 c1 u = Ok a' ->
  exists b', nd_blit None b r0 r1 c0 c1 v = Ok b' /\ arel R a' b'.
Proof.
  intros Ha Hu H. pose proof Ha as (A1 & A2 & A3 & A4). pose proof Hu as (U1 & U2 & U3 & U4).
  unfold nd_blit in *. rewrite <- A2, <- A3, <- U2, <- U3. destruct (_ && _) eqn:E; [|done]. injection H as <-.
  apply andb_true_iff in E as [E1%bool_decide_eq_true E2%bool_decide_eq_true].
  eexists. split; [done|]. apply arel_init. intros i j Hi Hj. destruct (_ && _) eqn:E.
  - apply andb_true_iff in E as [E3%bool_decide_eq_true E4%bool_decide_eq_true].
    destruct (nd_get_is_Some u (i - r0) (j - c0) U1) as [x Hx]; [lia|lia|].
    pose proof (arel_get R u v (i - r0) (j - c0) Hu) as G. rewrite Hx in *. inversion G. done.
  - destruct (nd_get_is_Some a i j A1) as [x Hx]; [lia|lia|]. pose proof (arel_get R a b i j Ha) as G. rewrite Hx in *. by inversion G.
Qed.
Lemma arel_slice R a b r0 r1 c0 c1 : arel R a b -> arel R (nd_slice None a r0 r1 c0 c1) (nd_slice None b r0 r1 c0 c1).
Proof.
  intros Ha. pose proof Ha as (A1 & A2 & A3 & A4). unfold nd_slice. rewrite <- A2, <- A3. apply arel_init. intros i j Hi Hj.
  destruct (nd_get_is_Some a (r0 + i) (c0 + j) A1) as [x Hx]; [lia|lia|]. pose proof (arel_get R a b (r0 + i) (c0 + j) Ha) as G. rewrite Hx in *. by inversion G.
Qed.

(** ** Two queries of the same layer *)
Section sim.
  Context {T : Type} (O : tile_ops T) (e : env) (g : grid T) (l : string) (r : Z) (n1 n2 : cell) (u1 u2 : bool) (R : cell -> cell -> Prop).
  Context (Hfill : R (layer_nodata l n1) (layer_nodata l n2)).
  Definition tile_sim (t : T) : Prop := forall t' o, op_get_layer O e t l r n1 (eff_up (g_meta g) u1) = Ok (t', o) ->
    t' = t /\ exists o', op_get_layer O e t l r n2 (eff_up (g_meta g) u2) = Ok (t, o') /\ option_Forall2 (arel R) o o'.
  Context (HT : forall k t, tile_at g k = Some t -> tile_sim t).

  Lemma sim_step k d1 d2 f s : arel R d1 d2 -> layer_step O e r [l] n1 u1 (Ok (g, [d1], f)) k = Ok s ->
    exists d1' d2' f', s = (g, [d1'], f') /\ layer_step O e r [l] n2 u2 (Ok (g, [d2], f)) k = Ok (g, [d2'], f') /\ arel R d1' d2'.
  Proof using HT.
    intros Hd. unfold layer_step. cbn [rbind]. destruct (tile_at g k) as [t|] eqn:Ht; [|intros [= <-]; eauto 8].
    intros (gt & H1 & H)%rbind_Ok. apply rbind_Ok in H as (data & H2 & [= <-]).
    unfold get_tile_data in *. apply rbind_Ok in H1 as (cols & Hc & H1). rewrite Hc. cbn [rbind].
    apply rbind_Ok in H1 as (m & Hm & H1). rewrite Hm. cbn [rbind]. rewrite Ht in *. cbn [rofopt rbind] in H1 |- *.
    apply rbind_Ok in H1 as (td & Hr & [= <-]). unfold read_layers in *. cbn [foldl rbind fst] in Hr |- *.
    apply rbind_Ok in Hr as ([t' o] & Ho & [= <-]). cbn [fst snd] in *.
    destruct (HT k t Ht t' o Ho) as (-> & o' & Ho' & Hoo). rewrite Ho'. cbn [rbind fst snd GridQuery.tr_data tr_col tr_row tr_cells map] in *.
    rewrite set_tile_id by (done || by eexists). destruct Hoo as [a b Hab|]; cbn [map blit_all dset snd GridQuery.tr_data] in *.
    - apply rbind_Ok in H2 as (d1' & H2 & [= <-]). destruct (arel_blit R _ _ _ _ _ _ _ _ _ Hd Hab H2) as (d2' & Hb & Hd'). rewrite Hb. cbn [rbind].
      exists d1', d2'. eexists. split; [done|]. split; [done|]. done.
    - injection H2 as <-. cbn [rbind]. eauto 8.
  Qed.
  Lemma sim_loop ks : forall d1 d2 f s, arel R d1 d2 -> foldl (layer_step O e r [l] n1 u1) (Ok (g, [d1], f)) ks = Ok s ->
    exists d1' d2' f', s = (g, [d1'], f') /\ foldl (layer_step O e r [l] n2 u2) (Ok (g, [d2], f)) ks = Ok (g, [d2'], f') /\ arel R d1' d2'.
  Proof using HT.
    induction ks as [|k ks IH]; intros d1 d2 f s Hd; cbn [foldl]; [intros [= <-]; eauto 8|].
    destruct (layer_step O e r [l] n1 u1 (Ok (g, [d1], f)) k) as [s1|x] eqn:E.
    - intros H. destruct (sim_step k d1 d2 f s1 Hd E) as (d1' & d2' & f' & -> & -> & Hd'). exact (IH d1' d2' f' s Hd' H).
    - intros H. exfalso. clear -H. induction ks as [|k' ks IH]; [done|]. exact (IH H).
  Qed.
  Lemma sim_query g' o : g_get_layers_by_name O e g [l] (Some r) n1 u1 = Ok (g', o) ->
    g' = g /\ exists o', g_get_layers_by_name O e g [l] (Some r) n2 u2 = Ok (g, o') /\ option_Forall2 (Forall2 (arel R)) o o'.
  Proof using HT Hfill.
    unfold g_get_layers_by_name. intros (ng & Hng & H)%rbind_Ok. rewrite Hng. cbn [rbind]. destruct ng; [done|]. cbn [pick_rez rbind rmap] in H |- *.
    unfold build_layer_grid in *. apply rbind_Ok in H as (data & Hdata & H).
    destruct (rofopt (m_height (g_meta g)) TypeError) as [h|]; [|done]. destruct (rofopt (m_width (g_meta g)) TypeError) as [w|]; [|done]. cbn [rbind] in *.
    destruct (exact_div h r) as [rows|]; [|done]. destruct (exact_div w r) as [cols|]; [|done]. cbn [rbind] in *. injection Hdata as <-.
    apply rbind_Ok in H as (s & Hs & [= <- <-]).
    destruct (sim_loop _ _ _ _ _ (arel_full R rows cols _ _ Hfill) Hs) as (d1 & d2 & f & -> & -> & Hd). cbn [rbind fst snd].
    split; [done|]. eexists. split; [done|]. destruct f; [|constructor]. constructor. by constructor; [|constructor].
  Qed.
  Lemma sim_nested t' o : g_get_layer O e g l r n1 u1 = Ok (t', o) ->
    t' = g /\ exists o', g_get_layer O e g l r n2 u2 = Ok (g, o') /\ option_Forall2 (arel R) o o'.
  Proof using HT Hfill.
    unfold g_get_layer. intros ([g' p] & Hq & H)%rbind_Ok. destruct (sim_query g' p Hq) as (-> & p' & -> & Hp). cbn [rbind fst snd] in *.
    destruct Hp as [x y Hxy|].
    - destruct Hxy as [|a b x y Hab _]; [done|]. cbn [head rofopt rbind] in *. injection H as <- <-. split; [done|]. eexists. split; [done|]. by constructor.
    - injection H as <- <-. split; [done|]. eexists. split; [done|]. constructor.
  Qed.
End sim.

(** ** A standard layer of a tile *)
Definition std_layers : list string := float_layers ++ int_layers.
Lemma std_not_container l : l ∈ std_layers -> is_container_query l = false /\ l ∉ slope_layers.
Proof.
  intros H. split.
  - unfold is_container_query. apply negb_false_iff, bool_decide_eq_true. unfold std_layers in H. rewrite !elem_of_app in *. tauto.
  - intros H2. apply elem_of_list_In in H, H2. cbn in H, H2. intuition congruence.
Qed.
Lemma std_query e t l r nodata up : l ∈ std_layers -> t_get_layers_by_name e t l (Some r) nodata up =
  if t_is_empty t then Ok (t, None) else
  match dget (t_cells t) r with
  | None => Ok (t, None)
  | Some d => let* a := rofopt (dget d l) ValueError in Ok (t, present_layer a (bool_decide (l = "depth")) up (layer_nodata l nodata))
  end.
Proof.
  intros Hl. destruct (std_not_container l Hl) as [H1 H2]. unfold t_get_layers_by_name. destruct (t_is_empty t); [done|]. cbn [rbind].
  unfold dmem. destruct (dget (t_cells t) r) as [d|] eqn:E.
  - rewrite bool_decide_eq_true_2 by (by apply dget_is_Some; eexists). unfold prepare_query. rewrite bool_decide_eq_false_2 by done. rewrite H1. cbn [rbind].
    unfold layers_at. rewrite E. cbn [from_option id]. destruct (dget d l); [|done]. cbn [rofopt rbind].
    replace (bool_decide (str_lower l = "depth")) with (bool_decide (l = "depth")); [done|].
    apply elem_of_list_In in Hl. cbn in Hl. repeat (destruct Hl as [<-|Hl]; [by vm_compute|]). done.
  - rewrite bool_decide_eq_false_2; [done|]. intros Hin%dget_is_Some. rewrite E in Hin. by destruct Hin.
Qed.

(** Every layer of the tiles of a clean history has the shape of its resolution. *)
Lemma steps_good e Q x y s b t ct f : 0 < s -> tile_steps e Q x y s b t ct f -> good e t /\ at_square t x y s b.
Proof.
  intros Hs H. destruct (reach_good _ _ _ _ _ _ _ Hs (steps_reach _ _ _ _ _ _ _ _ _ H)) as (H1 & H2 & _). done.
Qed.
Lemma sr_good e (P : gargs -> Prop) size b zarr disk g ct k t : 0 < size -> (forall a, P a -> known_args a) ->
  sr_clean e P size b zarr disk g ct -> tile_at g k = Some t -> exists x y, good e t /\ at_square t x y size b.
Proof.
  intros Hs HP H Ht.
  destruct (sr_clean_inv e (fun _ _ => True) P size b zarr disk Hs (fun a Pa => known_allows a (HP a Pa)) g ct H) as (_ & seen & ok & HI).
  destruct (root_rep _ _ _ _ _ _ _ _ HI Ht) as (x & y & ct' & (_ & (f & HT) & _) & Hne). exists x, y. by eapply steps_good.
Qed.
Lemma vr_good e (P : gargs -> Prop) size sub b zarr disk g ct k sg j t : 0 < size -> 0 < sub -> (forall a, P a -> known_args a) ->
  vr_clean e P size sub b zarr disk g ct -> tile_at g k = Some sg -> tile_at sg j = Some t -> exists x y, good e t /\ at_square t x y sub false.
Proof.
  intros Hs Hsub HP H Hg Ht.
  destruct (vr_clean_inv e (fun _ _ => True) P size sub b zarr disk Hs Hsub (fun a Pa => known_allows a (HP a Pa)) g ct H) as (_ & seen & ok & HI).
  destruct (root_rep _ _ _ _ _ _ _ _ HI Hg) as (x & y & ct' & (HC & _) & Hne).
  destruct (child_rep _ _ _ _ _ _ _ _ _ HC Ht) as (u & v & ct2 & (_ & (f & HT) & _) & Hne2). exists u, v. by eapply steps_good.
Qed.
Lemma good_wf e t r d l a : good e t -> dget (t_cells t) r = Some d -> dget d l = Some a -> nd_wf a.
Proof.
  intros H Hd Ha. destruct (g_cells _ _ H r d Hd) as (_ & _ & _ & _ & alg & _ & _ & _ & HS). by destruct (HS l a Ha) as (? & _).
Qed.

(** ** Nodata and sign of a tile's layer *)
Lemma sr_tile_sim e (t : tile) l r n1 n2 u1 u2 (R : cell -> cell -> Prop) t' o : l ∈ std_layers -> good e t ->
  (forall x, R (cell_fill (layer_nodata l n1) (if bool_decide (l = "depth") && u1 then cell_neg x else x))
               (cell_fill (layer_nodata l n2) (if bool_decide (l = "depth") && u2 then cell_neg x else x))) ->
  t_get_layers_by_name e t l (Some r) n1 u1 = Ok (t', o) ->
  t' = t /\ exists o', t_get_layers_by_name e t l (Some r) n2 u2 = Ok (t, o') /\ option_Forall2 (arel R) o o'.
Proof.
  intros Hl HG HR. rewrite !std_query by done. destruct (t_is_empty t).
  { intros [= <- <-]. split; [done|]. eexists. split; [done|]. constructor. }
  destruct (dget (t_cells t) r) as [d|] eqn:E.
  2:{ intros [= <- <-]. split; [done|]. eexists. split; [done|]. constructor. }
  destruct (dget d l) as [a|] eqn:Ea; [|done]. cbn [rofopt rbind]. intros [= <- <-]. split; [done|]. eexists. split; [done|].
  pose proof (good_wf _ _ _ _ _ _ HG E Ea) as Hw. unfold present_layer. destruct (all_nan a); [constructor|]. constructor.
  assert (Hm : forall u n, nd_map (cell_fill n) (if bool_decide (l = "depth") && u then nd_map cell_neg a else a) =
    nd_map (fun x => cell_fill n (if bool_decide (l = "depth") && u then cell_neg x else x)) a).
  { intros u n. destruct (bool_decide (l = "depth") && u); [|reflexivity]. unfold nd_map. cbn [nrows ncols nflat]. by rewrite map_map. }
  rewrite !Hm. by apply arel_map.
Qed.

(** ** The array of a standard layer of a single resolution grid *)
Lemma grid_ext {T} (g h : grid T) : g_meta h = g_meta g -> g_geom h = g_geom g -> g_mask h = g_mask g -> g_disk h = g_disk g ->
  option_map nrows (g_tiles h) = option_map nrows (g_tiles g) -> option_map ncols (g_tiles h) = option_map ncols (g_tiles g) ->
  tiles_size h = tiles_size g -> (forall k, tile_at h k = tile_at g k) -> h = g.
Proof.
  destruct g as [m ge mk ti dk], h as [m' ge' mk' ti' dk']. unfold tile_at, tiles_size. cbn. intros -> -> -> -> Hr Hc Hl H. f_equal.
  destruct ti as [[r c l]|], ti' as [[r' c' l']|]; try done. cbn in *. injection Hr as ->. injection Hc as ->. do 2 f_equal.
  apply list_eq. intros k. specialize (H k). destruct (l !! k) as [x|] eqn:E, (l' !! k) as [y|] eqn:E'; cbn in H; try congruence.
  - apply lookup_lt_Some in E. apply lookup_ge_None in E'. lia.
  - apply lookup_lt_Some in E'. apply lookup_ge_None in E. lia.
Qed.

Section std.
  Context (e : env) (g : sr_grid) (r : Z) (l : string) (nodata : cell) (up : bool) (nx ny n : nat).
  Context (Hl : l ∈ std_layers) (HB : boxed g r nx ny n) (Hg : g_no_grid sr_ops g = Ok false).
  Context (HT : forall k t, tile_at g k = Some t -> t_is_empty t = false /\ (dget (t_cells t) r = None \/ exists a, layer_of t r l = Some a /\ shape_is a n n)).

  (** The value stored in a tile for a cell of the whole grid. *)
  Definition stored (R C : nat) : cell :=
    match tile_at g (R / n * nx + C / n) with
    | Some t => match layer_of t r l with Some a => default None (nd_get a (R mod n) (C mod n)) | None => None end
    | None => None
    end.
  Notation u := (eff_up (g_meta g) up).
  Notation view x := (cell_fill (layer_nodata l nodata) (if bool_decide (l = "depth") && u then cell_neg x else x)).

  Lemma std_read t : (exists k, tile_at g k = Some t) ->
    read_layers sr_ops e t [l] r nodata u = Ok (t, match layer_of t r l with
      | Some a => match present_layer a (bool_decide (l = "depth")) u (layer_nodata l nodata) with Some v => [(l, v)] | None => [] end
      | None => [] end).
  Proof using HT Hl.
    intros [k Hk]. destruct (HT k t Hk) as [He Hd]. unfold read_layers. cbn [foldl rbind fst snd].
    change (op_get_layer sr_ops e t l r nodata u) with (t_get_layers_by_name e t l (Some r) nodata u). rewrite std_query by done.
    rewrite He. unfold layer_of in *. destruct (dget (t_cells t) r) as [d|] eqn:E.
    - destruct Hd as [?|(a & Ha & _)]; [done|]. rewrite Ha. cbn [rofopt rbind fst snd dset]. by destruct (present_layer _ _ _ _).
    - done.
  Qed.

  Lemma std_found k : found sr_ops e g r [l] nodata up k = match tile_at g k with
    | Some t => match layer_of t r l with
                | Some a => match present_layer a (bool_decide (l = "depth")) u (layer_nodata l nodata) with Some v => [v] | None => [] end
                | None => [] end
    | None => [] end.
  Proof using HT Hl.
    unfold found, tile_found. destruct (tile_at g k) as [t|] eqn:Ht; [|done]. rewrite std_read by eauto. cbn [snd].
    destruct (layer_of t r l) as [a|]; [|done]. by destruct (present_layer _ _ _ _).
  Qed.

  Lemma present_some a v : present_layer a (bool_decide (l = "depth")) u (layer_nodata l nodata) = Some v ->
    nrows v = nrows a /\ ncols v = ncols a /\ forall i j, nd_get v i j = (fun x => view x) <$> nd_get a i j.
  Proof.
    unfold present_layer. destruct (all_nan a); [done|]. intros [= <-]. split; [by destruct (_ && _)|]. split; [by destruct (_ && _)|].
    intros i j. rewrite nd_get_map. destruct (bool_decide (l = "depth") && u); [|done]. rewrite nd_get_map. by destruct (nd_get a i j).
  Qed.
  Lemma present_none a i j x : present_layer a (bool_decide (l = "depth")) u (layer_nodata l nodata) = None -> nd_get a i j = Some x -> x = None.
  Proof.
    unfold present_layer. destruct (all_nan a) eqn:E; [|done]. intros _ Hx. unfold all_nan in E. rewrite forallb_forall in E.
    unfold nd_get in Hx. destruct (_ && _); [|done]. apply elem_of_list_lookup_2, elem_of_list_In, E in Hx. by destruct x.
  Qed.

  Lemma std_cells : exists o, g_get_layers_by_name sr_ops e g [l] (Some r) nodata up = Ok (g, o) /\
    (forall arrs, o = Some arrs -> exists a, arrs = [a] /\ nd_wf a /\ nrows a = (ny * n)%nat /\ ncols a = (nx * n)%nat /\
       forall R C, (R < ny * n)%nat -> (C < nx * n)%nat -> nd_get a R C = Some (view (stored R C))) /\
    ((exists k t a, tile_at g k = Some t /\ layer_of t r l = Some a /\ all_nan a = false) -> o <> None).
  Proof using All.
    destruct (layers_query sr_ops e g r [l] nodata up nx ny n HB Hg) as [Q1 Q2]. cbv zeta in *.
    assert (HS : forall k, (k < ny * nx)%nat -> reads sr_ops e g r [l] nodata up k /\ shaped sr_ops e g r [l] nodata up n k).
    { intros k _. split.
      - unfold reads. destruct (tile_at g k) as [t|] eqn:Ht; [|done]. rewrite std_read by eauto. eauto.
      - intros a. rewrite std_found. destruct (tile_at g k) as [t|] eqn:Ht; [|by intros ?%not_elem_of_nil].
        destruct (HT k t Ht) as [_ Hd]. destruct (layer_of t r l) as [b|] eqn:Hb; [|by intros ?%not_elem_of_nil].
        destruct Hd as [Hd|(b' & [= <-] & (B1 & B2 & B3))]; [unfold layer_of in Hb; by rewrite Hd in Hb|].
        destruct (present_layer _ _ _ _) as [v|] eqn:Hv; [|by intros ?%not_elem_of_nil]. intros ->%elem_of_list_singleton.
        destruct (present_some _ _ Hv) as (V1 & V2 & _). split; congruence. }
    destruct (proj1 Q1 HS) as [p Hp]. destruct (Q2 p Hp) as (s & [M1 M2 M3 M4 M5 M6 M7 M8 _ _] & ->).
    pose proof (bx_tiles _ _ _ _ _ HB) as (ta & Ta & Tr & Tc & Tl).
    assert (Hs : s.1.1 = g).
    { apply grid_ext; try done.
      - rewrite M7, Ta. cbn. congruence.
      - rewrite M5, Ta. cbn. congruence.
      - rewrite M6. unfold tiles_size. by rewrite Ta.
      - intros k. rewrite M8. case_bool_decide; [|done]. unfold after. destruct (tile_at g k) as [t|] eqn:Ht; [|done].
        rewrite std_read by eauto. done. }
    rewrite Hs in Hp. eexists. split; [exact Hp|]. split.
    - intros arrs. destruct (any _ _ _ _ _ _ _ _); [|done]. intros [= <-]. cbn [length seq map]. eexists. split; [done|].
      split; [apply nd_init_wf|]. split; [done|]. split; [done|]. intros R C HR HC. unfold assembled. rewrite nd_get_init by done. f_equal. cbv zeta.
      pose proof (bx_n _ _ _ _ _ HB) as Hn. pose proof (bx_nx _ _ _ _ _ HB) as Hx.
      assert (K1 : (R / n < ny)%nat) by (apply Nat.div_lt_upper_bound; lia).
      assert (K2 : (C / n < nx)%nat) by (apply Nat.div_lt_upper_bound; lia).
      assert (KK : (R / n * nx + C / n < ny * nx)%nat) by (by apply flat_lt).
      rewrite bool_decide_eq_true_2 by done. rewrite std_found. unfold stored, fill_of. cbn [lookup list_lookup].
      destruct (tile_at g _) as [t|] eqn:Ht; [|cbn; by destruct (_ && _)]. destruct (HT _ t Ht) as [_ Hd].
      destruct (layer_of t r l) as [b|] eqn:Hb; [|cbn; by destruct (_ && _)].
      destruct Hd as [Hd|(b' & [= <-] & (B1 & B2 & B3))]; [unfold layer_of in Hb; by rewrite Hd in Hb|].
      destruct (nd_get_is_Some b (R mod n) (C mod n) B1) as [x Hxx]; [rewrite B2; by apply Nat.mod_upper_bound; lia|rewrite B3; by apply Nat.mod_upper_bound; lia|].
      destruct (present_layer _ _ _ _) as [v|] eqn:Hv; cbn [lookup list_lookup].
      + destruct (present_some _ _ Hv) as (_ & _ & HV). rewrite HV, Hxx. done.
      + rewrite Hxx. cbn. rewrite (present_none _ _ _ _ Hv Hxx). by destruct (_ && _).
    - intros (k & t & a & Ht & Ha & Hn). assert (Hk : (k < ny * nx)%nat).
      { apply tile_at_size in Ht. unfold tiles_size in Ht. rewrite Ta, Tl in Ht. done. }
      replace (any _ _ _ _ _ _ _ _) with true; [done|]. symmetry. unfold any. apply existsb_exists. exists k. split; [apply in_seq; lia|].
      rewrite std_found, Ht, Ha. unfold present_layer. by rewrite Hn.
  Qed.
End std.
