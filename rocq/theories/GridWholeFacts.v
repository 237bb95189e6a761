(** A layer query of a grid put together from the answers of its tiles; used twice for variable resolution grids. *)
From Coq Require Import Lqa.
From Verif Require Import Py Nd Numpy Point Bin Algorithms Tile Time Meta Disk Grid GridRun GridQuery GridOps Spec TileExec GridExec WholeSpec PyFacts NdFacts NumpyFacts AlgFacts BinFacts
  MiscFacts TileFacts TileGridFacts TileSpecFacts TileRunFacts TileHistFacts ShoalFacts TilePropFacts TileQueryFacts GridBaseFacts GridPlaceFacts GridInvFacts GridRootFacts
  GridEvolveFacts GridSrFacts GridPropFacts GridHistFacts GridRunFacts GridCleanFacts GridUpdateFacts GridDensityFacts GridFlagFacts GridLayerFacts GridReadFacts GridAnswerFacts.
Open Scope Z_scope.
Local Ltac Zify.zify_post_hook ::= Z.div_mod_to_equations.

(** The query [q] succeeds, leaves a state in [K], and its answer covers [rows] by [cols] cells from (x, y), each as
    [W] requires for the points of [d] in it; without an answer the cells are as if filled with [fill]. *)
Definition gives {S} (q : res (S * option arr)) (K : S -> Prop) (x y r : Z) (rows cols : nat) (d : list point)
    (W : list point -> cell -> Prop) (fill : cell) : Prop :=
  exists s o, q = Ok (s, o) /\ K s /\ (d <> [] <-> o <> None) /\
    match o with
    | Some a => nd_wf a /\ nrows a = rows /\ ncols a = cols /\
        forall R C, (R < rows)%nat -> (C < cols)%nat -> exists v, nd_get a R C = Some v /\ W (points_in_cell x y r R C d) v
    | None => forall R C, (R < rows)%nat -> (C < cols)%nat -> W (points_in_cell x y r R C d) fill
    end.

Section whole.
  Context {T : Type} (O : tile_ops T) (e : env) (g : grid T) (r : Z) (l : string) (nodata : cell) (up : bool) (nx ny n : nat) (lx ly : Z).
  Context (d : list point) (W : list point -> cell -> Prop) (K : T -> T -> Prop).
  Notation size := (Z.of_nat n * r).
  Notation fill := (layer_nodata l nodata).
  Notation u := (eff_up (g_meta g) up).
  Notation X k := (lx + Z.of_nat (k mod nx)%nat * size).
  Notation Y k := (ly + Z.of_nat (k / nx)%nat * size).
  Notation here k := (filter (fun p => in_square (X k) (Y k) size (px p) (py p)) d).
  Context (HB : boxed g r nx ny n) (Hg : g_no_grid O g = Ok false) (Hnil : W [] fill).
  Context (Hlive : d <> [] -> exists k, (k < ny * nx)%nat /\ here k <> []).
  Context (HT : forall k, (k < ny * nx)%nat ->
    match tile_at g k with
    | Some t => gives (op_get_layer O e t l r nodata u) (K t) (X k) (Y k) r n n (here k) W fill
    | None => here k = []
    end).

  Lemma whole_read k t : tile_at g k = Some t -> (k < ny * nx)%nat -> exists t' o,
    op_get_layer O e t l r nodata u = Ok (t', o) /\
    read_layers O e t [l] r nodata u = Ok (t', match o with Some a => [(l, a)] | None => [] end).
  Proof using HT.
    intros Ht Hk. specialize (HT k Hk). rewrite Ht in HT. destruct HT as (t' & o & Hq & _). exists t', o. split; [done|].
    unfold read_layers. cbn [foldl rbind fst snd]. rewrite Hq. cbn. by destruct o.
  Qed.
  Lemma whole_found k t t' o : tile_at g k = Some t -> op_get_layer O e t l r nodata u = Ok (t', o) ->
    found O e g r [l] nodata up k = match o with Some a => [a] | None => [] end.
  Proof using.
    intros Ht Hq. unfold found, tile_found. rewrite Ht. unfold read_layers. cbn [foldl rbind fst snd]. rewrite Hq. cbn. by destruct o.
  Qed.

  (** Metadata, geometry and mask stay; the tiles are as the queries of the tiles leave them. *)
  Definition kept (g' : grid T) : Prop :=
    g_meta g' = g_meta g /\ g_geom g' = g_geom g /\ g_mask g' = g_mask g /\ g_disk g' = g_disk g /\
    option_map nrows (g_tiles g') = option_map nrows (g_tiles g) /\ option_map ncols (g_tiles g') = option_map ncols (g_tiles g) /\
    tiles_size g' = tiles_size g /\
    forall k, match tile_at g k, tile_at g' k with Some t, Some t' => K t t' | None, None => True | _, _ => False end.

  Lemma whole_query : exists g' o, g_get_layers_by_name O e g [l] (Some r) nodata up = Ok (g', option_map (fun a => [a]) o) /\
    kept g' /\ (d <> [] <-> o <> None) /\
    match o with
    | Some a => nd_wf a /\ nrows a = (ny * n)%nat /\ ncols a = (nx * n)%nat /\
        forall R C, (R < ny * n)%nat -> (C < nx * n)%nat -> exists v, nd_get a R C = Some v /\ W (points_in_cell lx ly r R C d) v
    | None => forall R C, (R < ny * n)%nat -> (C < nx * n)%nat -> W (points_in_cell lx ly r R C d) fill
    end.
  Proof using All.
    destruct (layers_query O e g r [l] nodata up nx ny n HB Hg) as [Q1 Q2]. cbv zeta in *.
    assert (HS : forall k, (k < ny * nx)%nat -> reads O e g r [l] nodata up k /\ shaped O e g r [l] nodata up n k).
    { intros k Hk. split.
      - unfold reads. destruct (tile_at g k) as [t|] eqn:Ht; [|done]. destruct (whole_read k t Ht Hk) as (t' & o & _ & Hr). eauto.
      - intros a. destruct (tile_at g k) as [t|] eqn:Ht; [|unfold found; rewrite Ht; by intros ?%not_elem_of_nil].
        pose proof (HT k Hk) as H. rewrite Ht in H. destruct H as (t' & o & Hq & _ & _ & Ho). rewrite (whole_found _ _ _ _ Ht Hq).
        destruct o as [b|]; [|by intros ?%not_elem_of_nil]. intros ->%elem_of_list_singleton. by destruct Ho as (_ & ? & ? & _). }
    destruct (proj1 Q1 HS) as [p Hp]. destruct (Q2 p Hp) as (s & [M1 M2 M3 M4 M5 M6 M7 M8 _ _] & ->). rewrite Hp. clear Q1 Q2 Hp.
    pose proof (bx_tiles _ _ _ _ _ HB) as (ta & Ta & Tr & Tc & Tl).
    pose proof (bx_n _ _ _ _ _ HB) as Hn. pose proof (bx_nx _ _ _ _ _ HB) as Hx. pose proof (bx_rez _ _ _ _ _ HB) as Hr.
    assert (HK : kept s.1.1).
    { split; [done|]. split; [done|]. split; [done|]. split; [done|]. split; [rewrite M7, Ta; cbn; congruence|].
      split; [rewrite M5, Ta; cbn; congruence|]. split; [rewrite M6; unfold tiles_size; by rewrite Ta|].
      intros k. rewrite M8. case_bool_decide as Hk.
      - unfold after. destruct (tile_at g k) as [t|] eqn:Ht; [|done]. pose proof (HT k Hk) as H. rewrite Ht in H. destruct H as (t' & o & Hq & HK & _).
        destruct (whole_read k t Ht Hk) as (t2 & o2 & Hq2 & ->). rewrite Hq in Hq2. injection Hq2 as <- <-. exact HK.
      - destruct (tile_at g k) as [t|] eqn:Ht; [|done]. apply tile_at_size in Ht. unfold tiles_size in Ht. rewrite Ta, Tl in Ht. lia. }
    assert (Hpts : forall R C, (R < ny * n)%nat -> (C < nx * n)%nat -> let k := (R / n * nx + C / n)%nat in
      (k < ny * nx)%nat /\ (R mod n < n)%nat /\ (C mod n < n)%nat /\
      points_in_cell lx ly r R C d = points_in_cell (X k) (Y k) r (R mod n) (C mod n) (here k)).
    { intros R C HR HC k.
      assert (K1 : (R / n < ny)%nat) by (apply Nat.div_lt_upper_bound; lia).
      assert (K2 : (C / n < nx)%nat) by (apply Nat.div_lt_upper_bound; lia).
      assert (KK : (k < ny * nx)%nat) by (by apply flat_lt).
      assert (N1 : (R mod n < n)%nat) by (apply Nat.mod_upper_bound; lia). assert (N2 : (C mod n < n)%nat) by (apply Nat.mod_upper_bound; lia).
      split; [done|]. split; [done|]. split; [done|].
      pose proof (cell_split lx ly size r nx n R C Hr Hn eq_refl K2) as Hsp. cbv zeta in Hsp. fold k in Hsp.
      unfold points_in_cell. rewrite filter_impl.
      - apply list_filter_iff. intros p. symmetry. apply Hsp.
      - intros p Hpp. exact (in_cell_square _ _ r n _ _ _ _ Hr N1 N2 Hpp). }
    exists s.1.1. destruct (any _ _ _ _ _ _ _ _) eqn:Hany.
    - exists (Some (assembled O e g r [l] nodata up nx ny n (ny * nx) 0)). split; [done|]. split; [done|]. split.
      { split; [done|]. intros _ Hd. unfold any in Hany. apply existsb_exists in Hany as (k & Hk & Hf). apply in_seq in Hk.
        pose proof (HT k ltac:(lia)) as H. destruct (tile_at g k) as [t|] eqn:Ht; [|by unfold found in Hf; rewrite Ht in Hf].
        destruct H as (t' & o & Hq & _ & Ho & _). rewrite (whole_found _ _ _ _ Ht Hq) in Hf. destruct o as [a|]; [|done].
        apply (proj2 Ho); [discriminate|]. by rewrite Hd. }
      split; [apply nd_init_wf|]. split; [done|]. split; [done|]. intros R C HR HC. unfold assembled. rewrite nd_get_init by done. cbv zeta.
      eexists. split; [done|]. destruct (Hpts R C HR HC) as (KK & N1 & N2 & ->). set (k := (R / n * nx + C / n)%nat) in *.
      rewrite bool_decide_eq_true_2 by done. pose proof (HT k KK) as H. unfold fill_of. cbn [lookup list_lookup].
      destruct (tile_at g k) as [t|] eqn:Ht.
      + destruct H as (t' & o & Hq & _ & _ & Ho). rewrite (whole_found _ _ _ _ Ht Hq). destruct o as [a|]; cbn [lookup list_lookup].
        * destruct Ho as (_ & _ & _ & Hc). destruct (Hc _ _ N1 N2) as (v & -> & HW). exact HW.
        * by apply Ho.
      + rewrite H. unfold found. rewrite Ht. exact Hnil.
    - exists None. split; [done|]. split; [done|].
      assert (Hnone : forall k t t' o, (k < ny * nx)%nat -> tile_at g k = Some t -> op_get_layer O e t l r nodata u = Ok (t', o) -> o = None).
      { intros k t t' o Hk Ht Hq. destruct o as [a|]; [|done]. exfalso. rewrite <- not_false_iff_true in Hany || idtac.
        assert (Hy : any O e g r [l] nodata up (ny * nx) = true); [|congruence]. unfold any. apply existsb_exists. exists k.
        split; [apply in_seq; lia|]. by rewrite (whole_found _ _ _ _ Ht Hq). }
      split.
      + split; [|by intros []]. intros Hd _. destruct (Hlive Hd) as (k & Hk & Hh). pose proof (HT k Hk) as H. destruct (tile_at g k) as [t|] eqn:Ht; [|done].
        destruct H as (t' & o & Hq & _ & Ho & _). apply (proj1 Ho); [done|]. by eapply Hnone.
      + intros R C HR HC. destruct (Hpts R C HR HC) as (KK & N1 & N2 & ->). set (k := (R / n * nx + C / n)%nat) in *.
        pose proof (HT k KK) as H. destruct (tile_at g k) as [t|] eqn:Ht; [|rewrite H; exact Hnil].
        destruct H as (t' & o & Hq & _ & _ & Ho). rewrite (Hnone _ _ _ _ KK Ht Hq) in Ho. by apply Ho.
  Qed.

  (** The same for the grid as a tile of another grid. *)
  Lemma whole_gives : gives (g_get_layer O e g l r nodata up) kept lx ly r (ny * n) (nx * n) d W fill.
  Proof using All.
    destruct whole_query as (g' & o & Hq & HK & Hd & Ho). exists g', o. split; [|done]. unfold g_get_layer. rewrite Hq. cbn [rbind fst snd].
    by destruct o.
  Qed.
End whole.

Lemma kept_eq {T} (g g' : grid T) : kept g eq g' -> g' = g.
Proof.
  intros (K1 & K2 & K3 & K4 & K5 & K6 & K7 & K8). apply grid_ext; try done. intros k. specialize (K8 k).
  destruct (tile_at g k), (tile_at g' k); try done. congruence.
Qed.

(** Points of the rectangle lie in one of its squares. *)
Lemma rect_live lx ly size nx ny (d : list point) : 0 < size -> Forall (in_rect lx ly size nx ny) (map xy_of d) -> d <> [] ->
  exists k, (k < ny * nx)%nat /\
    filter (fun p => in_square (lx + Z.of_nat (k mod nx) * size) (ly + Z.of_nat (k / nx) * size) size (px p) (py p)) d <> [].
Proof.
  intros Hs HF Hd. destruct (exists_cons _ Hd) as (p & l & ->). cbn in HF. apply Forall_cons in HF as [Hp _].
  pose proof (cell_number_range lx ly size nx ny (xy_of p) Hs Hp) as Hrange.
  exists (Z.to_nat (cell_number lx ly size nx (xy_of p))). split; [lia|]. intros E.
  assert (Hin : p ∈ filter (fun q => in_square (lx + Z.of_nat (Z.to_nat (cell_number lx ly size nx (xy_of p)) mod nx) * size)
    (ly + Z.of_nat (Z.to_nat (cell_number lx ly size nx (xy_of p)) / nx) * size) size (px q) (py q)) (p :: l)); [|rewrite E in Hin; by apply not_elem_of_nil in Hin].
  apply elem_of_list_filter. split; [|left].
  apply (in_square_number (new_sr_meta 0 0 size false false) Hs lx ly nx ny); [lia|done|done].
Qed.

(** A cell of a tile with points in it. *)
Lemma square_cell x y r n p : 0 < r -> in_square x y (Z.of_nat n * r) (px p) (py p) ->
  exists R C, (R < n)%nat /\ (C < n)%nat /\ in_cell x y r R C (px p) (py p).
Proof.
  intros Hr [Hx Hy]. exists (Z.to_nat ((py p - y) / r)), (Z.to_nat ((px p - x) / r)).
  assert (B1 : 0 <= (py p - y) / r < Z.of_nat n) by (split; [apply Z.div_pos; lia|apply Z.div_lt_upper_bound; lia]).
  assert (B2 : 0 <= (px p - x) / r < Z.of_nat n) by (split; [apply Z.div_pos; lia|apply Z.div_lt_upper_bound; lia]).
  split; [lia|]. split; [lia|]. unfold in_cell. rewrite !Z2Nat.id by lia. clear -Hr. split.
  - pose proof (Z.div_mod (px p - x) r). pose proof (Z.mod_pos_bound (px p - x) r). nia.
  - pose proof (Z.div_mod (py p - y) r). pose proof (Z.mod_pos_bound (py p - y) r). nia.
Qed.

(** A stored layer as [present_layer] hands it out. *)
Lemma present_gives {S} (q : res (S * option arr)) (K : S -> Prop) s dp x y r n d (W : list point -> cell -> Prop) fill up a :
  0 < r -> Forall (fun p => in_square x y (Z.of_nat n * r) (px p) (py p)) d ->
  d <> [] -> W [] fill -> (forall d v, d <> [] -> W d v -> v <> None) -> dp && up = false ->
  layer_is n a (fun R C => W (points_in_cell x y r R C d)) ->
  q = Ok (s, present_layer a dp up fill) -> K s -> gives q K x y r n n d W fill.
Proof.
  intros Hr Hd Hne W0 W1 Hneg Ha -> HK. destruct Ha as (Ar & Ac & Al & Hc).
  assert (HW : forall R C v, W (points_in_cell x y r R C d) v -> W (points_in_cell x y r R C d) (cell_fill fill v)).
  { intros R C [v|] Hv; [done|]. cbn. destruct (points_in_cell x y r R C d) as [|p l'] eqn:E; [done|]. by destruct (W1 (p :: l') None). }
  eexists _, _. split; [reflexivity|]. split; [done|]. unfold present_layer. rewrite Hneg. destruct (all_nan a) eqn:En.
  - assert (Hnan : forall R C v, nd_get a R C = Some v -> v = None).
    { intros R C [v|] Hv; [|done]. by rewrite (all_nan_get _ _ _ _ Hv) in En. }
    split.
    + split; [intros _|done]. destruct (exists_cons _ Hne) as (p & l' & ->). exfalso. apply Forall_cons in Hd as [Hp _].
      destruct (square_cell _ _ _ _ _ Hr Hp) as (R & C & HR & HC & Hin). destruct (Hc R C HR HC) as (v & Hv & Hw).
      pose proof (Hnan _ _ _ Hv) as ->. eapply W1; [|exact Hw|done]. unfold points_in_cell.
      rewrite filter_cons_True by done. done.
    + intros R C HR HC. destruct (Hc R C HR HC) as (v & Hv & Hw). pose proof (Hnan _ _ _ Hv) as ->. exact (HW _ _ _ Hw).
  - split; [done|]. split; [unfold nd_wf, nd_map; cbn [nflat nrows ncols]; rewrite map_length, Ar, Ac; lia|]. split; [done|]. split; [done|].
    intros R C HR HC. destruct (Hc R C HR HC) as (v & Hv & Hw). exists (cell_fill fill v). rewrite nd_get_map, Hv. split; [done|]. by apply HW.
Qed.
Lemma std_gives e (t : tile) l x y r n d (W : list point -> cell -> Prop) up a :
  l ∈ std_layers -> 0 < r -> t_data t = Some d -> d <> [] -> Forall (fun p => in_square x y (Z.of_nat n * r) (px p) (py p)) d ->
  W [] (layer_nodata l None) -> (forall d v, d <> [] -> W d v -> v <> None) -> up = false \/ l <> "depth" ->
  layer_of t r l = Some a -> layer_is n a (fun R C => W (points_in_cell x y r R C d)) ->
  gives (t_get_layers_by_name e t l (Some r) None up) (eq t) x y r n n d W (layer_nodata l None).
Proof.
  intros Hl Hr Hd Hne Hin W0 W1 Hu Ha HL. eapply (present_gives _ _ t (bool_decide (l = "depth"))); try done.
  { destruct Hu as [->|Hu]; [apply andb_false_r|by rewrite bool_decide_eq_false_2]. }
  rewrite std_query by done.
  assert (He : t_is_empty t = false) by (unfold t_is_empty, t_points_count; rewrite Hd; by destruct d). rewrite He.
  unfold layer_of in Ha. destruct (dget (t_cells t) r); [|done]. by rewrite Ha.
Qed.

(** ** Sub-grids of a variable resolution grid whose tile size is a multiple of the sub-tile size *)
Record sub_frame (sg : grid tile) (x y sub : Z) (m : nat) : Prop := {
  sf_m : (0 < m)%nat;
  sf_box : forall r n, 0 < r -> (0 < n)%nat -> sub = Z.of_nat n * r -> boxed sg r m m n;
  sf_slot : forall j, (j < m * m)%nat -> origin_at sg j = Some (x + Z.of_nat (j mod m) * sub, y + Z.of_nat (j / m) * sub);
  sf_up : m_positive_up (g_meta sg) = false;
  sf_live : exists j t, tile_at sg j = Some t;
  sf_tile : forall j t, tile_at sg j = Some t -> (j < m * m)%nat }.

Lemma child_sub_frame m0 (rep : tile -> Z -> Z -> content -> Prop) x y W m sg ct : 0 < m_tile_size m0 -> (0 < m)%nat ->
  W = Z.of_nat m * m_tile_size m0 -> child_inv m0 rep x y W sg ct -> ct <> [] -> sub_frame sg x y (m_tile_size m0) m.
Proof.
  intros Hs Hm -> [[B1 B2 B3 B4 B5 B6 B7 B8] [(_ & ? & _)|(Hne & a & P & Hn & Hw & Hh)]] Hct; [done|].
  rewrite ceil_div_mult, Nat2Z.id in P by done. pose proof P as [P1 P2 P3 P4 P5 P6 P7 P8]. pose proof (mf_size _ _ B1) as Hsz.
  split; try done.
  - intros r n Hr Hn0 Hsub. split; try done.
    + exists a. split; [done|]. split; [done|]. split; [done|]. by destruct P7.
    + congruence.
    + by rewrite Hsz.
    + by rewrite Hsz.
  - intros j Hj. exact (std_origin m0 x y m m j sg P3 Hj).
  - unfold m_positive_up. by rewrite B4.
  - destruct (slots_live m0 rep Hs _ _ _ _ _ _ P7 P8) as (k & t & Hk); [by rewrite all_points_nil_iff|].
    exists k, t. unfold tile_at. rewrite P4. by rewrite Hk.
  - intros j t Ht. apply tile_at_size in Ht. unfold tiles_size in Ht. rewrite P4 in Ht. destruct P7 as [P7 _]. lia.
Qed.

Lemma vr_frame e (P : gargs -> Prop) size sub b zarr disk g ct : 0 < size -> 0 < sub -> size mod sub = 0 -> (forall a, P a -> known_args a) ->
  vr_clean e P size sub b zarr disk g ct -> ct <> [] ->
  exists lx ly nx ny, frame g size ct lx ly nx ny /\
    forall k sg, tile_at g k = Some sg ->
      sub_frame sg (lx + Z.of_nat (k mod nx) * size) (ly + Z.of_nat (k / nx) * size) sub (Z.to_nat (size / sub)).
Proof.
  intros Hs Hsub Hm HP H Hne.
  destruct (vr_clean_inv e (fun _ _ => True) P size sub b zarr disk Hs Hsub (fun a Pa => known_allows a (HP a Pa)) g ct H) as (_ & seen & ok & HI).
  destruct (root_frame (new_vr_meta 0 0 size sub b zarr) _ _ _ _ _ Hs HI Hne) as (lx & ly & nx & ny & HF).
  exists lx, ly, nx, ny. split; [exact HF|]. intros k sg Hk.
  pose proof (fr_slot _ _ _ _ _ _ _ HF k (fr_tile _ _ _ _ _ _ _ HF _ _ Hk)) as Ho. cbn [m_tile_size new_vr_meta new_meta] in Ho.
  destruct (root_has _ _ _ _ _ _ _ _ _ HI (ex_intro _ k (conj Ho Hk))) as [Hc [HR _]].
  assert (E : size = Z.of_nat (Z.to_nat (size / sub)) * sub). { rewrite Z2Nat.id by (apply Z.div_pos; lia). pose proof (Z.div_mod size sub). lia. }
  assert (Hpos : (0 < Z.to_nat (size / sub))%nat). { destruct (Z.to_nat (size / sub)); lia. }
  exact (child_sub_frame (sub0 size sub b zarr _ _) _ _ _ _ _ _ _ Hsub Hpos E HR Hc).
Qed.

(** A layer of a variable resolution grid put together from the sub-tiles. *)
Lemma vr_whole e (g : vr_grid) ct (d : list point) size sub (m n : nat) r l nodata up (W : list point -> cell -> Prop) (K : tile -> tile -> Prop) lx ly nx ny :
  0 < r -> (0 < n)%nat -> sub = Z.of_nat n * r -> size = Z.of_nat (m * n) * r ->
  frame g size ct lx ly nx ny ->
  (forall k sg, tile_at g k = Some sg -> sub_frame sg (lx + Z.of_nat (k mod nx) * size) (ly + Z.of_nat (k / nx) * size) sub m) ->
  g_no_grid vr_ops g = Ok false -> (forall k sg, tile_at g k = Some sg -> g_no_grid sr_ops sg = Ok false) ->
  W [] (layer_nodata l nodata) -> Forall (in_rect lx ly size nx ny) (map xy_of d) ->
  (forall k x y, origin_at g k = Some (x, y) ->
    match tile_at g k with
    | Some sg => forall j u v, origin_at sg j = Some (u, v) ->
        let here := filter (fun p => in_square u v sub (px p) (py p)) (filter (fun p => in_square x y size (px p) (py p)) d) in
        match tile_at sg j with
        | Some t => gives (t_get_layers_by_name e t l (Some r) nodata (eff_up (g_meta g) up)) (K t) u v r n n here W (layer_nodata l nodata)
        | None => here = []
        end
    | None => filter (fun p => in_square x y size (px p) (py p)) d = []
    end) ->
  exists g' o, g_get_layers_by_name vr_ops e g [l] (Some r) nodata up = Ok (g', option_map (fun a => [a]) o) /\
    kept g (fun sg sg' => kept sg K sg') g' /\ (d <> [] <-> o <> None) /\
    match o with
    | Some a => nd_wf a /\ nrows a = (ny * (m * n))%nat /\ ncols a = (nx * (m * n))%nat /\
        forall R C, (R < ny * (m * n))%nat -> (C < nx * (m * n))%nat -> exists v, nd_get a R C = Some v /\ W (points_in_cell lx ly r R C d) v
    | None => forall R C, (R < ny * (m * n))%nat -> (C < nx * (m * n))%nat -> W (points_in_cell lx ly r R C d) (layer_nodata l nodata)
    end.
Proof.
  intros Hr Hn Hsub Hsize HF HS Hg Hgs W0 Hrect HT.
  assert (Hm : (0 < m)%nat). { destruct (fr_live _ _ _ _ _ _ _ HF) as (k & sg & Hk). exact (sf_m _ _ _ _ _ (HS k sg Hk)). }
  assert (Hs0 : 0 < size) by (rewrite Hsize, Nat2Z.inj_mul; repeat apply Z.mul_pos_pos; lia).
  assert (Hss : size = Z.of_nat m * sub) by (rewrite Hsize, Hsub, Nat2Z.inj_mul; ring).
  subst size. eapply (whole_query vr_ops e g r l nodata up nx ny (m * n) lx ly d W (fun sg => kept sg K)); try done.
  - apply (fr_box _ _ _ _ _ _ _ HF); [done|apply Nat.mul_pos_pos; lia|done].
  - intros Hd. by apply rect_live.
  - intros k Hk. pose proof (fr_slot _ _ _ _ _ _ _ HF k Hk) as Ho. specialize (HT k _ _ Ho).
    destruct (tile_at g k) as [sg|] eqn:Hkt; [|done]. specialize (HS k sg Hkt). specialize (Hgs k sg Hkt).
    set (x := lx + Z.of_nat (k mod nx) * (Z.of_nat (m * n) * r)) in *. set (y := ly + Z.of_nat (k / nx) * (Z.of_nat (m * n) * r)) in *.
    cbn [op_get_layer vr_ops grid_ops]. subst sub.
    assert (Hup : eff_up (g_meta sg) (eff_up (g_meta g) up) = eff_up (g_meta g) up) by (unfold eff_up at 1; by rewrite (sf_up _ _ _ _ _ HS)).
    apply (whole_gives sr_ops e sg r l nodata (eff_up (g_meta g) up) m m n x y); try done.
    + by apply (sf_box _ _ _ _ _ HS).
    + intros Hd. apply rect_live; [lia| |done]. apply Forall_fmap, Forall_forall. intros p [Hp _]%elem_of_list_filter.
      unfold in_rect, in_square, xy_of in *. cbn [fst snd] in *. clearbody x y. rewrite <- Hss. exact Hp.
    + intros j Hj. specialize (HT j _ _ (sf_slot _ _ _ _ _ HS j Hj)). cbv zeta in HT.
      destruct (tile_at sg j) as [t|]; [|done]. cbn [op_get_layer sr_ops]. rewrite Hup. exact HT.
Qed.

Lemma vr_kept_eq (g g' : vr_grid) : kept g (fun sg sg' => kept sg eq sg') g' -> g' = g.
Proof.
  intros (K1 & K2 & K3 & K4 & K5 & K6 & K7 & K8). apply kept_eq. repeat (split; [done|]). intros k. specialize (K8 k).
  destruct (tile_at g k), (tile_at g' k); try done. symmetry. by apply kept_eq.
Qed.

Lemma vr_frame_answers e alg r size sub g' ct lx ly nx ny :
  alg = "mean" \/ alg = "shoalest" -> 0 < size -> 0 < sub -> frame g' size ct lx ly nx ny ->
  (forall k sg, tile_at g' k = Some sg -> sub_frame sg (lx + Z.of_nat (k mod nx) * size) (ly + Z.of_nat (k / nx) * size) sub (Z.to_nat (size / sub))) ->
  (forall k, tile_at g' k = None -> forall x y, origin_at g' k = Some (x, y) -> filter (fun p => in_square x y size (px p) (py p)) (all_points ct) = []) ->
  vr_reflects e alg r size sub ct g' -> 0 < r -> size mod sub = 0 -> sub mod r = 0 ->
  (forall up, eff_up (g_meta g') up = false ->
     (alg = "mean" -> answers_by vr_ops e g' "depth" r up (all_points ct) (fun d => mean_cell (map pz d))) /\
     (alg = "shoalest" -> answers_by vr_ops e g' "depth" r up (all_points ct) (fun d => least_cell (map pz d)))) /\
  forall up,
  answers_by vr_ops e g' "density" r up (all_points ct) (fun d v => v = Some (numQ (length d))) /\
  (alg = "mean" -> has_tvu (e_dt e) = true -> answers_by vr_ops e g' "vertical_uncertainty" r up (all_points ct) (fun d => mean_cell (map ptvu d))) /\
  (alg = "mean" -> has_thu (e_dt e) = true -> answers_by vr_ops e g' "horizontal_uncertainty" r up (all_points ct) (fun d => mean_cell (map pthu d))).
Proof.
  intros Halg Hs Hsub HF HS HC HR Hr Hm1 Hm2.
  set (m := Z.to_nat (size / sub)) in *. assert (Hm : size = Z.of_nat m * sub). { unfold m. rewrite Z2Nat.id by (apply Z.div_pos; lia). pose proof (Z.div_mod size sub). lia. }
  set (n := Z.to_nat (sub / r)). assert (Hn : sub = Z.of_nat n * r). { unfold n. rewrite Z2Nat.id by (apply Z.div_pos; lia). pose proof (Z.div_mod sub r). lia. }
  assert (Hn0 : (0 < n)%nat) by (destruct n; lia). assert (Hm0 : (0 < m)%nat) by (destruct m; lia).
  clearbody m n.
  assert (Hcells : forall k sg j t, tile_at g' k = Some sg -> tile_at sg j = Some t -> t_cells t <> []).
  { intros k sg j t Hk Hj.
    pose proof (fr_slot _ _ _ _ _ _ _ HF k (fr_tile _ _ _ _ _ _ _ HF _ _ Hk)) as Ho. pose proof (HS k sg Hk) as Sg.
    pose proof (HR _ _ sg j _ _ (ex_intro _ k (conj Ho Hk)) (sf_slot _ _ _ _ _ Sg j (sf_tile _ _ _ _ _ Sg _ _ Hj))) as Q. cbv zeta in Q. rewrite Hj in Q.
    destruct Q as (_ & _ & n' & dp & dn & _ & _ & Hdp & _). unfold layer_of in Hdp. by destruct (t_cells t). }
  assert (Htiles : g_tiles g' <> None) by (destruct (fr_live _ _ _ _ _ _ _ HF) as (k & t & Ht); unfold tile_at in Ht; by destruct (g_tiles g')).
  assert (Hg : g_no_grid vr_ops g' = Ok false).
  { apply vr_no_grid_false; [done|]. intros k sg Hk. split; [|intros j t Hj; by eapply Hcells].
    destruct (sf_live _ _ _ _ _ (HS k sg Hk)) as (j & t & Hj). exists t. by eapply tile_at_live. }
  assert (Hgs : forall k sg, tile_at g' k = Some sg -> g_no_grid sr_ops sg = Ok false).
  { intros k sg Hk. apply sr_no_grid_false; [intros j t Hj; by eapply Hcells|].
    destruct (sf_live _ _ _ _ _ (HS k sg Hk)) as (j & t & Ht). unfold tile_at in Ht. by destruct (g_tiles sg). }
  assert (G : forall l (W : list point -> cell -> Prop) up, l ∈ std_layers -> (eff_up (g_meta g') up = false \/ l <> "depth") ->
    W [] (layer_nodata l None) -> (forall d v, d <> [] -> W d v -> v <> None) ->
    (forall x y d t, reflects e alg r x y sub false d t -> exists a, layer_of t r l = Some a /\ layer_is n a (fun R C => W (points_in_cell x y r R C d))) ->
    answers_by vr_ops e g' l r up (all_points ct) W).
  { intros l W up Hl Hup W0 W1 HW.
    destruct (vr_whole e g' ct (all_points ct) size sub m n r l None up W eq lx ly nx ny) as (g2 & o & Q & K & D & A); try done.
    - rewrite Hm, Hn, Nat2Z.inj_mul. ring.
    - apply (fr_points _ _ _ _ _ _ _ HF).
    - intros k x y Ho. destruct (tile_at g' k) as [sg|] eqn:Hk; [|by eapply HC]. intros j u v Hj here.
      pose proof (HR x y sg j u v (ex_intro _ k (conj Ho Hk)) Hj) as Q. cbv zeta in Q.
      assert (Eh : here = filter (fun p => in_square x y size (px p) (py p) /\ in_square u v sub (px p) (py p)) (all_points ct)).
      { unfold here. rewrite list_filter_filter. apply list_filter_iff. intros p. tauto. }
      rewrite <- Eh in Q. destruct (tile_at sg j) as [t|]; [|done]. destruct Q as (Q1 & Q2 & Q3). destruct (HW _ _ _ _ Q3) as (arr & L1 & L2).
      eapply std_gives; try done. apply Forall_forall. intros p [Hp _]%elem_of_list_filter. by rewrite <- Hn.
    - pose proof (vr_kept_eq _ _ K) as ->. destruct o as [arr|]; [|exfalso; apply (proj1 D); [|reflexivity]].
      2:{ destruct (fr_live _ _ _ _ _ _ _ HF) as (k & sg & Hk). pose proof (fr_slot _ _ _ _ _ _ _ HF k (fr_tile _ _ _ _ _ _ _ HF _ _ Hk)) as Ho. pose proof (HS k sg Hk) as Sg.
          destruct (sf_live _ _ _ _ _ Sg) as (j & t & Hj).
          pose proof (HR _ _ sg j _ _ (ex_intro _ k (conj Ho Hk)) (sf_slot _ _ _ _ _ Sg j (sf_tile _ _ _ _ _ Sg _ _ Hj))) as Q3. cbv zeta in Q3. rewrite Hj in Q3.
          destruct Q3 as (_ & Q3 & _). intros E. apply Q3. rewrite E. done. }
      destruct A as (A1 & A2 & A3 & A4). eexists _, arr. split; [apply (fr_ext _ _ _ _ _ _ _ HF)|]. split; [exact Q|].
      split; [done|]. rewrite A2, A3. cbn [x0 x1 y0 y1]. split; [rewrite Hm, Hn, !Nat2Z.inj_mul; ring|]. split; [rewrite Hm, Hn, !Nat2Z.inj_mul; ring|]. exact A4. }
  assert (N : forall x y d t, reflects e alg r x y sub false d t -> exists dp dn,
    layer_of t r "depth" = Some dp /\ layer_of t r "density" = Some dn /\
    (alg = "mean" -> layer_is n dp (fun row col => mean_cell (map pz (points_in_cell x y r row col d)))) /\
    (alg = "shoalest" -> layer_is n dp (fun row col => least_cell (map pz (points_in_cell x y r row col d)))) /\
    layer_is n dn (fun row col v => v = Some (numQ (length (points_in_cell x y r row col d)))) /\
    (alg = "mean" -> has_tvu (e_dt e) = true -> exists a, layer_of t r "vertical_uncertainty" = Some a /\
       layer_is n a (fun row col => mean_cell (map ptvu (points_in_cell x y r row col d)))) /\
    (alg = "mean" -> has_thu (e_dt e) = true -> exists a, layer_of t r "horizontal_uncertainty" = Some a /\
       layer_is n a (fun row col => mean_cell (map pthu (points_in_cell x y r row col d))))).
  { intros x y d t (n' & dp & dn & _ & Hc & D1 & D2 & D3). rewrite (cells_cover_unique _ _ _ _ Hr Hn Hc) in D3. exists dp, dn. split; [done|]. by split. }
  split.
  - intros up Hup. split; intros Hal; (apply G; [apply (bool_decide_unpack _); vm_compute; exact I|by left|by left|..]).
    + intros d v Hd. apply mean_full. by apply map_ne.
    + intros x y d t (dp & dn & D1 & D2 & D3 & _)%N. eauto.
    + intros d v Hd. apply least_full. by apply map_ne.
    + intros x y d t (dp & dn & D1 & D2 & _ & D3 & _)%N. eauto.
  - intros up. split; [|split].
    + apply G; [apply (bool_decide_unpack _); vm_compute; exact I|by right|done|by intros d v _ ->|].
      intros x y d t (dp & dn & D1 & D2 & _ & _ & D3 & _)%N. eauto.
    + intros Hal Ht. apply G; [apply (bool_decide_unpack _); vm_compute; exact I|by right|by left|intros d v Hd; apply mean_full; by apply map_ne|].
      intros x y d t (dp & dn & D1 & D2 & _ & _ & _ & D3 & _)%N. by apply D3.
    + intros Hal Ht. apply G; [apply (bool_decide_unpack _); vm_compute; exact I|by right|by left|intros d v Hd; apply mean_full; by apply map_ne|].
      intros x y d t (dp & dn & D1 & D2 & _ & _ & _ & _ & D3)%N. by apply D3.
Qed.
Lemma vr_reflects_answers e alg r size sub b zarr disk g' ct :
  alg = "mean" \/ alg = "shoalest" -> 0 < size -> 0 < sub -> vr_clean e known_args size sub b zarr disk g' ct -> ct <> [] ->
  vr_reflects e alg r size sub ct g' -> 0 < r -> size mod sub = 0 -> sub mod r = 0 ->
  (forall up, eff_up (g_meta g') up = false ->
     (alg = "mean" -> answers_by vr_ops e g' "depth" r up (all_points ct) (fun d => mean_cell (map pz d))) /\
     (alg = "shoalest" -> answers_by vr_ops e g' "depth" r up (all_points ct) (fun d => least_cell (map pz d)))) /\
  forall up,
  answers_by vr_ops e g' "density" r up (all_points ct) (fun d v => v = Some (numQ (length d))) /\
  (alg = "mean" -> has_tvu (e_dt e) = true -> answers_by vr_ops e g' "vertical_uncertainty" r up (all_points ct) (fun d => mean_cell (map ptvu d))) /\
  (alg = "mean" -> has_thu (e_dt e) = true -> answers_by vr_ops e g' "horizontal_uncertainty" r up (all_points ct) (fun d => mean_cell (map pthu d))).
Proof.
  intros Halg Hs Hsub H' Hne HR Hr Hm1 Hm2.
  destruct (vr_frame _ _ _ _ _ _ _ _ _ Hs Hsub Hm1 (fun _ h => h) H' Hne) as (lx & ly & nx & ny & HF & HS).
  assert (HC : forall k, tile_at g' k = None -> forall x y, origin_at g' k = Some (x, y) -> filter (fun p => in_square x y size (px p) (py p)) (all_points ct) = []).
  { destruct (vr_clean_inv e (fun _ _ => True) known_args size sub b zarr disk Hs Hsub (fun a Pa => known_allows a Pa) g' ct H') as (_ & seen & ok & HI).
    intros k Hk x y Ho. pose proof (root_loc _ _ _ _ _ _ _ _ _ HI Ho) as Hl. rewrite Hk in Hl. cbn in Hl. rewrite <- content_in_points. cbn in Hl. by rewrite Hl. }
  exact (vr_frame_answers e alg r size sub g' ct lx ly nx ny Halg Hs Hsub HF HS HC HR Hr Hm1 Hm2).
Qed.
