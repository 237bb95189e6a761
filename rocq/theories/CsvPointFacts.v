(** Facts about the lines of csv files of gridded grids: what they say of the soundings (C124). *)
From Coq Require Import Lqa.
From Verif Require Import Py Nd Numpy Point Bin Algorithms Tile Time Meta Disk Grid GridRun GridQuery GridOps Export Spec TileExec GridExec WholeSpec SameSpec CsvSpec CsvPointSpec
  PyFacts NdFacts NumpyFacts AlgFacts BinFacts MiscFacts TileFacts TileGridFacts TileSpecFacts TileRunFacts TileHistFacts ShoalFacts TilePropFacts TileQueryFacts GridBaseFacts GridPlaceFacts GridInvFacts GridRootFacts
  GridEvolveFacts GridSrFacts GridPropFacts GridHistFacts GridRunFacts GridCleanFacts GridUpdateFacts GridDensityFacts GridFlagFacts GridLayerFacts GridReadFacts GridAnswerFacts GridTrimFacts GridMultiFacts GridWholeFacts GridCountFacts
  GridExportFacts GridCsvFacts GridMultiVrFacts GridContainerFacts GridValueFacts GridSameFacts CsvLineFacts CoarseFacts DensityRezFacts.
Open Scope Z_scope.

Lemma kept_std e alg l : kept_layer e alg l -> l ∈ std_layers.
Proof. intros [->|[->|[(-> & _)|(-> & _)]]]; apply (bool_decide_unpack _); vm_compute; exact I. Qed.
Lemma says_full alg l d v : d <> [] -> says alg l d v -> v <> None.
Proof.
  intros Hd. unfold says, depth_by. repeat case_bool_decide; try (apply mean_full; by apply map_ne); try (apply least_full; by apply map_ne). by intros ->.
Qed.

(** Gridding gives every tile a value in each of its layers. *)
Lemma reflects_filled e alg r x y s d t l : alg = "mean" \/ alg = "shoalest" -> 0 < r -> s mod r = 0 -> 0 < s ->
  reflects e alg r x y s false d t -> d <> [] -> Forall (fun p => in_square x y s (px p) (py p)) d -> kept_layer e alg l ->
  exists a q, layer_of t r l = Some a /\ Some q ∈ nflat a.
Proof.
  intros Halg Hr Hm Hs (n & dp & dn & _ & Hc & L1 & L2 & D1 & D2 & D3 & D4 & D5) Hd Hin Hl.
  set (k := Z.to_nat (s / r)). assert (Ek : s = Z.of_nat k * r). { unfold k. rewrite Z2Nat.id by (apply Z.div_pos; lia). pose proof (Z.div_mod s r). lia. }
  clearbody k. pose proof (cells_cover_unique _ _ _ _ Hr Ek Hc) as ->.
  assert (G : forall a, layer_of t r l = Some a -> layer_is k a (fun R C => says alg l (points_in_cell x y r R C d)) -> exists a q, layer_of t r l = Some a /\ Some q ∈ nflat a).
  { intros a Ha (A1 & A2 & A3 & A4). destruct (exists_cons _ Hd) as (p & d' & ->). apply Forall_cons in Hin as [Hp _]. rewrite Ek in Hp.
    destruct (square_cell _ _ _ _ _ Hr Hp) as (R & C & HR & HC & Hpc). destruct (A4 R C HR HC) as (v & Hv & Hsay).
    assert (Hne : v <> None). { eapply says_full; [|exact Hsay]. unfold points_in_cell. by rewrite filter_cons_True by done. }
    destruct v as [q|]; [|done]. exists a, q. split; [done|]. unfold nd_get in Hv. destruct (_ && _) in Hv; [|done]. by eapply elem_of_list_lookup_2. }
  destruct Hl as [->|[->|[(-> & M & V)|(-> & M & V)]]].
  - apply (G dp L1). unfold says, depth_by. cbn [bool_decide decide_rel]. rewrite bool_decide_eq_true_2 by done. destruct Halg as [->| ->]; [by apply D1|by apply D2].
  - apply (G dn L2). exact D3.
  - destruct (D4 M V) as (a & Ha & HA). by apply (G a Ha).
  - destruct (D5 M V) as (a & Ha & HA). by apply (G a Ha).
Qed.

Lemma sr_filled e alg r size zarr disk g ct k t l : alg = "mean" \/ alg = "shoalest" -> 0 < size -> sr_clean e known_args size false zarr disk g ct -> ct <> [] ->
  0 < r -> size mod r = 0 -> sr_reflects e alg r size false ct g -> tile_at g k = Some t -> kept_layer e alg l -> exists a q, layer_of t r l = Some a /\ Some q ∈ nflat a.
Proof.
  intros Halg Hs H Hne Hr Hm HR Ht Hl. destruct (sr_frame _ _ _ _ _ _ _ _ Hs (fun _ h => h) H Hne) as (lx & ly & nx & ny & HF).
  pose proof (HR _ _ _ (fr_slot _ _ _ _ _ _ _ HF k (fr_tile _ _ _ _ _ _ _ HF _ _ Ht))) as Q. cbv zeta in Q. rewrite Ht in Q. destruct Q as (_ & Q1 & Q2).
  eapply reflects_filled; try done. apply Forall_forall. by intros p [Hp _]%elem_of_list_filter.
Qed.
Lemma vr_filled e alg r size sub zarr disk g ct k sg j t l : alg = "mean" \/ alg = "shoalest" -> 0 < size -> 0 < sub -> vr_clean e known_args size sub false zarr disk g ct -> ct <> [] ->
  0 < r -> size mod sub = 0 -> sub mod r = 0 -> vr_reflects e alg r size sub ct g -> tile_at g k = Some sg -> tile_at sg j = Some t -> kept_layer e alg l ->
  exists a q, layer_of t r l = Some a /\ Some q ∈ nflat a.
Proof.
  intros Halg Hs Hsub H Hne Hr Hm1 Hm2 HR Hk Ht Hl. destruct (vr_frame _ _ _ _ _ _ _ _ _ Hs Hsub Hm1 (fun _ h => h) H Hne) as (lx & ly & nx & ny & HF & HS).
  pose proof (fr_slot _ _ _ _ _ _ _ HF k (fr_tile _ _ _ _ _ _ _ HF _ _ Hk)) as Ho. pose proof (HS k sg Hk) as Sg.
  pose proof (HR _ _ sg j _ _ (ex_intro _ k (conj Ho Hk)) (sf_slot _ _ _ _ _ Sg j (sf_tile _ _ _ _ _ Sg _ _ Ht))) as Q. cbv zeta in Q. rewrite Ht in Q. destruct Q as (_ & Q1 & Q2).
  eapply reflects_filled; try done. apply Forall_forall. by intros p [[_ Hp] _]%elem_of_list_filter.
Qed.

(** One layer asked for with depths counted downwards. *)
Definition shown (flip : bool) (l : string) (w v : cell) : Prop := if bool_decide (l = "depth") then exported_as flip None w v else v = w.
Lemma view_shown l up b x : (l <> "depth" \/ True) ->
  shown up l (cell_fill (layer_nodata l None) (if bool_decide (l = "depth") && b then cell_neg x else x))
    (cell_fill (layer_nodata l None) (if bool_decide (l = "depth") && xorb b up then cell_neg x else x)).
Proof.
  intros _. unfold shown. destruct (decide (l = "depth")) as [->|Hl]; [|rewrite bool_decide_eq_false_2 by done; done].
  rewrite bool_decide_eq_true_2 by done. cbn [andb]. destruct x as [q|]; destruct up, b; cbn; try done; eexists; (split; [done|]); rewrite ?Qred_correct; lra.
Qed.

(** The cell of a sounding holds a value. *)
Lemma holds_at alg r l (a : arr) (x : ext) d p : 0 < r -> x0 x mod r = 0 -> y0 x mod r = 0 ->
  Z.of_nat (nrows a) * r = y1 x - y0 x -> Z.of_nat (ncols a) * r = x1 x - x0 x -> p ∈ d -> x0 x <= px p < x1 x -> y0 x <= py p < y1 x -> forall flip,
  (forall R C, (R < nrows a)%nat -> (C < ncols a)%nat -> exists w v, nd_get a R C = Some v /\
     says alg l (points_at r (x0 x + Z.of_nat C * r) (y0 x + Z.of_nat R * r) d) w /\ shown flip l w v) ->
  exists R C, holds a R C /\ x0 x + Z.of_nat C * r = r * (px p / r) /\ y0 x + Z.of_nat R * r = r * (py p / r).
Proof.
  intros Hr X1 X2 N1 N2 Hp P1 P2 flip HA0.
  assert (Dn : forall v n lo, lo <= v < lo + Z.of_nat n * r -> (Z.to_nat ((v - lo) / r) < n)%nat).
  { intros v n lo Hv. assert ((v - lo) / r < Z.of_nat n) by (apply Z.div_lt_upper_bound; lia). assert (0 <= (v - lo) / r) by (apply Z.div_pos; lia). lia. }
  assert (E : forall v lo, lo mod r = 0 -> lo <= v -> lo + Z.of_nat (Z.to_nat ((v - lo) / r)) * r = r * (v / r)).
  { intros u lo Hm Hu. rewrite Z2Nat.id by (apply Z.div_pos; lia). apply Z.div_exact in Hm; [|lia]. set (q := lo / r) in *. clearbody q. subst lo.
    replace (u - r * q) with (u + (- q) * r) by lia. rewrite Z.div_add by lia. lia. }
  set (R := Z.to_nat ((py p - y0 x) / r)). set (C := Z.to_nat ((px p - x0 x) / r)).
  assert (HR : (R < nrows a)%nat) by (apply Dn; lia). assert (HC : (C < ncols a)%nat) by (apply Dn; lia).
  pose proof (E (px p) (x0 x) X1 ltac:(lia)) as EC. pose proof (E (py p) (y0 x) X2 ltac:(lia)) as ER. fold C in EC. fold R in ER. clearbody R C.
  destruct (HA0 R C HR HC) as (w & v & Hv & Hsay & Hsh). rewrite EC, ER in Hsay.
  assert (Hne : w <> None).
  { eapply says_full; [|exact Hsay]. intros Hnil. assert (Hin : p ∈ points_at r (r * (px p / r)) (r * (py p / r)) d).
    { apply elem_of_list_filter. split; [|done]. pose proof (Z.div_mod (px p) r). pose proof (Z.mod_pos_bound (px p) r). pose proof (Z.div_mod (py p) r). pose proof (Z.mod_pos_bound (py p) r). unfold in_square. lia. }
    rewrite Hnil in Hin. by apply not_elem_of_nil in Hin. }
  exists R, C. split; [|done]. unfold shown in Hsh. destruct w as [q|]; [|done]. case_bool_decide; [destruct Hsh as (q' & -> & _)|subst v]; by eexists.
Qed.
Lemma columns_ok m up : forall ls data, length ls = length data -> exists cols, csv_columns m up ls data = Ok cols.
Proof.
  induction ls as [|l ls IH]; intros [|a data] H; try done; [by exists []|]. injection H as H. destruct (IH data H) as [cols Hc]. exists (csv_column m up l a :: cols). cbn [csv_columns]. by rewrite Hc.
Qed.

Section file.
  Context {T : Type} (O : tile_ops T) (e : env) (alg : string) (r : Z) (d : list point) (g : grid T) (ls : list string).
  Context (HS : settled O e alg r d g) (Hls : g_return_layer_names O g = Ok ls) (Hkept : Forall (kept_layer e alg) ls).
  Context (Hmul : exists o, g_get_layers_by_name O e g ls (Some r) None false = Ok (g, o) /\
    match o with
    | Some arrs => Forall2 (fun l a => g_get_layers_by_name O e g [l] (Some r) None false = Ok (g, Some [a])) ls arrs
    | None => Forall (fun l => g_get_layers_by_name O e g [l] (Some r) None false = Ok (g, None)) ls
    end).
  Context (Hsim : forall l a, kept_layer e alg l -> g_get_layers_by_name O e g [l] (Some r) None (m_positive_up (g_meta g)) = Ok (g, Some [a]) ->
    exists o', g_get_layers_by_name O e g [l] (Some r) None false = Ok (g, o') /\ same_answers (shown (m_positive_up (g_meta g)) l) (Some [a]) o').
  Context (x : ext) (Hext : m_ext (g_meta g) = Some x) (Hw : m_width (g_meta g) = Some (x1 x - x0 x)) (Hh : m_height (g_meta g) = Some (y1 x - y0 x)).

  Lemma down_layer l : kept_layer e alg l -> exists a, g_get_layers_by_name O e g [l] (Some r) None false = Ok (g, Some [a]) /\
    Z.of_nat (nrows a) * r = y1 x - y0 x /\ Z.of_nat (ncols a) * r = x1 x - x0 x /\
    forall R C, (R < nrows a)%nat -> (C < ncols a)%nat -> exists w v, nd_get a R C = Some v /\
      says alg l (points_at r (x0 x + Z.of_nat C * r) (y0 x + Z.of_nat R * r) d) w /\ shown (m_positive_up (g_meta g)) l w v.
  Proof using HS Hsim Hext.
    intros Hl. destruct HS as [Hr _ HA]. destruct (HA l Hl) as (x' & a & Hx' & Hq & Hlen & HY & HX & HW). rewrite Hext in Hx'. injection Hx' as <-.
    destruct (Hsim l a Hl Hq) as (o' & Hq' & Hsame). inversion Hsame as [? arrs Harrs|]. subst o'. inversion Harrs as [|? a' ? ? (S1 & S2 & S3) Hnil]. subst. inversion Hnil. subst.
    exists a'. split; [done|]. rewrite <- S1, <- S2. split; [done|]. split; [done|]. intros R C HR HC. destruct (HW R C HR HC) as (w & Hw' & Hs).
    rewrite points_in_cell_at in Hs. exists w. unfold nd_get in *. rewrite <- S1, <- S2. destruct (_ && _) in *; [|done].
    destruct (Forall2_lookup_l _ _ _ _ _ S3 Hw') as (v & Hv & Hsh). exists v. done.
  Qed.
  Lemma down_layers : exists arrs, g_get_layers_by_name O e g ls (Some r) None false = Ok (g, Some arrs) /\
    Forall2 (fun l a => g_get_layers_by_name O e g [l] (Some r) None false = Ok (g, Some [a])) ls arrs \/ ls = [].
  Proof using HS Hsim Hext Hmul Hkept Hls.
    destruct ls as [|l ls'] eqn:El; [exists []; by right|]. destruct Hmul as ([arrs|] & Hq & HF); [exists arrs; by left|].
    exfalso. apply Forall_cons in HF as [HF _]. apply Forall_cons in Hkept as [Hk _]. destruct (down_layer l Hk) as (a & Ha & _). congruence.
  Qed.

  Lemma csv_written up p : ls <> [] -> p ∈ d -> exists g1 fs, export_csv O e g up (Some r) = Ok (g1, fs).
  Proof using HS Hsim Hext Hmul Hkept Hls.
    intros Hne Hp. destruct down_layers as (arrs & [(Hq & HF)|Hnil]); [|done]. pose proof (Forall2_length _ _ _ HF) as Hlen.
    destruct ls as [|l0 ls'] eqn:El; [done|]. inversion HF as [|? first ? rest Hq0 _]. subst arrs.
    destruct (down_layer l0) as (a & Ha & N1 & N2 & HA); [by apply Forall_cons in Hkept as [? _]|]. rewrite Hq0 in Ha. injection Ha as <-.
    destruct (se_ext _ _ _ _ _ _ HS) as (x' & Hx' & X1 & X2 & X3). rewrite Hext in Hx'. injection Hx' as <-. rewrite Forall_forall in X3. destruct (X3 p Hp) as [P1 P2].
    pose proof (se_pos _ _ _ _ _ _ HS) as Hr.
    destruct (holds_at alg r l0 first x d p Hr X1 X2 N1 N2 Hp P1 P2 (m_positive_up (g_meta g)) HA) as (R & C & Hho & _).
    destruct (trimmed_ok O e g (l0 :: ls') (Some r) None false g (first :: rest) first R C Hq eq_refl Hho) as (arrs & lo & hi & Ht).
    unfold export_csv. cbn [foldl rbind fst snd]. rewrite Hls. cbn [rbind]. unfold g_surf_nodes.
    assert (Hng : g_no_grid O g = Ok false). { unfold g_get_layers_by_name in Hq. apply rbind_Ok in Hq as (ng & Hng & Hq). by destruct ng. }
    rewrite Hng. cbn [rbind pick_rez]. rewrite Ht. cbn [rbind fst snd]. rewrite Hext. cbn [rofopt rbind fst snd].
    destruct lo as [lo1 lo2], hi as [hi1 hi2]. destruct (trimmed _ _ _ _ _ _ _ _ _ _ _ _ _ Ht) as (full & first' & Hq2 & _ & _ & HP). rewrite Hq in Hq2. injection Hq2 as <-. apply Forall2_length in HP.
    destruct (columns_ok (g_meta g) up (l0 :: ls') arrs) as [cols ->]; [lia|]. cbn [rbind]. eauto.
  Qed.

  Lemma csv_points up g1 fs : export_csv O e g up (Some r) = Ok (g1, fs) ->
    g1 = g /\ exists f, fs = [f] /\ cf_names f = "x" :: "y" :: map (heading up) ls /\ csv_of_points e alg r (m_positive_up (g_meta g)) (up && negb (Qle_bool (m_mean_depth (g_meta g)) 0)) d ls f.
  Proof using All.
    intros Hc. pose proof (se_pos _ _ _ _ _ _ HS) as Hr. destruct (csv_file_of O e g up r x g1 fs Hr Hext Hw Hh Hc) as (ls' & full & f & Hls' & Hq & -> & Hrz & Hnm & first & r0 & c0 & r1 & c1 & Hf & HB & HP).
    rewrite Hls in Hls'. injection Hls' as <-.
    destruct down_layers as (arrs & [(Hq' & HF)|Hnil]).
    2:{ exfalso. destruct Hmul as (o & Ho & HM). rewrite Hq in Ho. injection Ho as -> <-. rewrite Hnil in HM. inversion HM. by subst full. }
    rewrite Hq in Hq'. injection Hq' as -> <-. split; [done|]. exists f. split; [done|]. split; [done|].
    assert (HD : forall i l, ls !! i = Some l -> exists a, full !! i = Some a /\ Z.of_nat (nrows a) * r = y1 x - y0 x /\ Z.of_nat (ncols a) * r = x1 x - x0 x /\
      forall R C, (R < nrows a)%nat -> (C < ncols a)%nat -> exists w v, nd_get a R C = Some v /\
      says alg l (points_at r (x0 x + Z.of_nat C * r) (y0 x + Z.of_nat R * r) d) w /\ shown (m_positive_up (g_meta g)) l w v).
    { intros i l Hi. destruct (Forall2_lookup_l _ _ _ _ _ HF Hi) as (a & Ha & Hqa). destruct (down_layer l) as (a' & Ha' & HA); [eapply Forall_lookup_1; done|].
      rewrite Hqa in Ha'. injection Ha' as <-. by exists a. }
    destruct full as [|first' full]; [done|]. injection Hf as ->.
    assert (H0 : exists l0, ls !! 0%nat = Some l0) by (inversion HF; by eexists). destruct H0 as [l0 Hl0].
    destruct (HD _ _ Hl0) as (a0 & Ha0 & N1 & N2 & HA0). injection Ha0 as <-.
    assert (Hshape : forall i l a, ls !! i = Some l -> (first :: full) !! i = Some a -> nrows a = nrows first /\ ncols a = ncols first).
    { intros i l a Hi Ha. destruct (HD _ _ Hi) as (a' & Ha' & M1 & M2 & _). rewrite Ha in Ha'. injection Ha' as <-.
      split; apply Nat2Z.inj; apply (Z.mul_reg_r _ _ r); lia. }
    destruct (se_ext _ _ _ _ _ _ HS) as (x' & Hx' & X1 & X2 & X3). rewrite Hext in Hx'. injection Hx' as <-.
    destruct (vb_rows _ _ _ _ _ HB) as [B1 B2], (vb_cols _ _ _ _ _ HB) as [B3 B4].
    split; [|split].
    - intros qx qy cs Hin. rewrite HP in Hin. apply elem_of_list_In, in_map_iff in Hin as ([R C] & HL & Hprod). apply in_prod_iff in Hprod as [HR%in_seq HC%in_seq].
      unfold cell_line in HL. cbn [fst snd] in HL. injection HL as <- <- <-.
      exists (x0 x + Z.of_nat C * r), (y0 x + Z.of_nat R * r). split; [|split; [|split; [|split; [|split]]]].
      + by rewrite Z_mod_plus_full.
      + by rewrite Z_mod_plus_full.
      + reflexivity.
      + reflexivity.
      + rewrite map_length, zip_with_length. pose proof (Forall2_length _ _ _ HF). lia.
      + intros i l v Hi Hv. destruct (HD _ _ Hi) as (a & Ha & _ & _ & HA). destruct (Hshape _ _ _ Hi Ha) as [E1 E2].
        destruct (HA R C) as (w & v' & Hv' & Hsay & Hsh); [lia|lia|].
        assert (Ev : v = listed (g_meta g) up l v').
        { change (map (fun la => listed (g_meta g) up la.1 (default None (nd_get la.2 R C))) (zip ls (first :: full))) with ((fun la => listed (g_meta g) up la.1 (default None (nd_get la.2 R C))) <$> (zip ls (first :: full))) in Hv.
          rewrite list_lookup_fmap, lookup_zip_with, Hi in Hv. cbn [mbind option_bind] in Hv. rewrite Ha in Hv. cbn [mbind option_bind fmap option_fmap option_map fst snd] in Hv. rewrite Hv' in Hv. by injection Hv as <-. }
        subst v. unfold says, shown, listed in *. split; [|split; [|split]].
        * intros ->. cbn [bool_decide decide_rel] in *. rewrite bool_decide_eq_true_2 in * by done. exists w. split; [done|]. rewrite andb_true_r.
          unfold exported_as in *. destruct w as [q|]; [|cbv beta iota in Hsh; rewrite Hsh; destruct up, (Qle_bool (m_mean_depth (g_meta g)) 0); reflexivity]. destruct Hsh as (q' & -> & Hq').
          destruct (up && negb _); cbn [cell_neg option_map]; (eexists; split; [reflexivity|]); rewrite ?Qred_correct; destruct (m_positive_up (g_meta g)); cbn [xorb]; lra.
        * intros ->. cbn in Hsh, Hsay. rewrite !(bool_decide_eq_false_2 ("density" = "depth")) in * by done. rewrite bool_decide_eq_true_2 in Hsay by done. rewrite andb_false_r. cbn [andb]. by subst.
        * intros ->. rewrite !(bool_decide_eq_false_2 ("vertical_uncertainty" = "depth")) in * by done. rewrite (bool_decide_eq_false_2 ("vertical_uncertainty" = "density")) in * by done. rewrite bool_decide_eq_true_2 in Hsay by done.
          rewrite andb_false_r. cbn [andb]. by subst.
        * intros ->. rewrite !(bool_decide_eq_false_2 ("horizontal_uncertainty" = "depth")) in * by done. rewrite (bool_decide_eq_false_2 ("horizontal_uncertainty" = "density")), (bool_decide_eq_false_2 ("horizontal_uncertainty" = "vertical_uncertainty")) in * by done.
          rewrite andb_false_r. cbn [andb]. by subst.
    - intros p Hp. rewrite Forall_forall in X3. destruct (X3 p Hp) as [P1 P2].
      destruct (holds_at alg r l0 first x d p Hr X1 X2 N1 N2 Hp P1 P2 (m_positive_up (g_meta g)) HA0) as (R & C & Hho & EC & ER).
      destruct (vb_all _ _ _ _ _ HB R C Hho) as [C1 C2]. exists (cell_line (g_meta g) x r up ls (first :: full) (R, C)).
      split; [rewrite HP; apply elem_of_list_In, in_map, in_prod; apply in_seq; lia|]. unfold cell_line. cbn [fst snd]. rewrite EC, ER. split; reflexivity.
    - intros i j l1 l2 Hi Hj E1 E2. assert (ND : NoDup (map (fun l : Q * Q * list cell => (Qred l.1.1, Qred l.1.2)) (cf_lines f))).
      { rewrite HP, map_map. unfold cell_line. cbn [fst snd]. apply NoDup_map_inj; [|apply NoDup_list_prod; apply NoDup_seq].
        intros [R C] [R' C'] H1 H2. cbn [fst snd]. intros [= F1 F2]. apply Qred_eq_iff in F1, F2.
        assert (G1 : (inject_Z (x0 x + Z.of_nat C * r) == inject_Z (x0 x + Z.of_nat C' * r))%Q) by lra.
        assert (G2 : (inject_Z (y0 x + Z.of_nat R * r) == inject_Z (y0 x + Z.of_nat R' * r))%Q) by lra.
        rewrite inject_Z_injective in G1, G2. f_equal; apply Nat2Z.inj, (Z.mul_reg_r _ _ r); lia. }
      assert (Hlk : forall k l, cf_lines f !! k = Some l -> map (fun l : Q * Q * list cell => (Qred l.1.1, Qred l.1.2)) (cf_lines f) !! k = Some (Qred l.1.1, Qred l.1.2)).
      { intros k l Hk. change (map ?h ?c) with (h <$> c). by rewrite list_lookup_fmap, Hk. }
      eapply (NoDup_lookup _ _ _ _ ND (Hlk _ _ Hi)). rewrite (Hlk _ _ Hj). f_equal. symmetry. f_equal; by apply Qred_complete.
  Qed.
End file.

(** Without layers there is no file. *)
Lemma csv_no_layers {T} (O : tile_ops T) e (g : grid T) up r x g1 fs : 0 < r -> m_ext (g_meta g) = Some x -> m_width (g_meta g) = Some (x1 x - x0 x) -> m_height (g_meta g) = Some (y1 x - y0 x) ->
  g_return_layer_names O g = Ok [] -> export_csv O e g up (Some r) <> Ok (g1, fs).
Proof.
  intros Hr Hx Hw Hh Hls Hc. destruct (csv_file_of O e g up r x g1 fs Hr Hx Hw Hh Hc) as (ls & full & f & Hls' & Hq & _ & _ & _ & first & r0 & c0 & r1 & c1 & Hf & _).
  rewrite Hls in Hls'. injection Hls' as <-. unfold g_get_layers_by_name in Hq. apply rbind_Ok in Hq as (ng & _ & H). destruct ng; [done|]. cbn [pick_rez rbind] in H.
  apply rbind_Ok in H as (data & Hd & H). apply rbind_Ok in H as (s & Hs & H). destruct s as [[g2 d1] fd]. cbn [fst snd] in H. destruct fd; [|done]. injection H as <- <-.
  unfold build_layer_grid in Hd. cbn [rmap] in Hd. injection Hd as <-.
  destruct (loop_shape O e _ _ _ _ 0%nat 0%nat _ (g, [], false) _ (Forall_nil_2 _) Hs) as [L _]. by destruct d1.
Qed.

(** The densities listed add up to the number of soundings. *)
Lemma choose_list {A B} (P : A -> B -> Prop) L : (forall a, a ∈ L -> exists b, P a b) -> exists M, Forall2 P L M.
Proof.
  induction L as [|a L IH]; intros H; [by exists []|]. destruct (H a) as [b Hb]; [left|]. destruct IH as [M HM]; [intros; apply H; by right|]. exists (b :: M). by constructor.
Qed.
Lemma lattice_cell r c u : 0 < r -> c mod r = 0 -> c <= u < c + r -> c = r * (u / r).
Proof. intros Hr Hm Hu. apply Z.div_exact in Hm; [|lia]. rewrite <- (Z.div_unique u r (c / r) (u - c)); lia. Qed.
Lemma in_lattice_cell r p : 0 < r -> in_square (r * (px p / r)) (r * (py p / r)) r (px p) (py p).
Proof.
  intros Hr. pose proof (Z.div_mod (px p) r). pose proof (Z.mod_pos_bound (px p) r). pose proof (Z.div_mod (py p) r). pose proof (Z.mod_pos_bound (py p) r). unfold in_square. lia.
Qed.
Lemma cells_count r (M : list (Z * Z)) d : 0 < r -> NoDup M -> Forall (fun xy => xy.1 mod r = 0 /\ xy.2 mod r = 0) M ->
  (forall p, p ∈ d -> (r * (px p / r), r * (py p / r)) ∈ M) -> sum_list_with (fun xy => length (cell_points r xy.1 xy.2 d)) M = length d.
Proof.
  intros Hr ND HM. induction d as [|p d IH]; intros Hd; [by apply sum_zero|].
  rewrite (sum_ext _ (fun xy => length (cell_points r xy.1 xy.2 [p]) + length (cell_points r xy.1 xy.2 d))%nat).
  2:{ intros xy. unfold cell_points. change (p :: d) with ([p] ++ d). by rewrite filter_app, app_length. }
  rewrite sum_plus, IH by (intros q Hq; apply Hd; by right). cbn [length]. change (S (length d)) with (1 + length d)%nat. f_equal.
  apply (sum_one _ (r * (px p / r), r * (py p / r))); [done|apply Hd; left| |].
  - unfold cell_points. by rewrite filter_cons_True by by apply in_lattice_cell.
  - intros [x y] Hin Hn. unfold cell_points. rewrite filter_cons_False; [done|]. cbn [fst snd]. intros [H1 H2]. apply Hn. rewrite Forall_forall in HM. destruct (HM _ Hin) as [E1 E2]. cbn [fst snd] in E1, E2.
    f_equal; by apply lattice_cell.
Qed.
Lemma csv_total e alg r raised flip d ls f i : 0 < r -> csv_of_points e alg r raised flip d ls f -> ls !! i = Some "density" ->
  (sumQ (omap id (omap (fun ln : Q * Q * list cell => ln.2 !! i) (cf_lines f))) == numQ (length d))%Q.
Proof.
  intros Hr (H1 & H2 & H3) Hi.
  destruct (choose_list (fun (ln : Q * Q * list cell) (xy : Z * Z) => xy.1 mod r = 0 /\ xy.2 mod r = 0 /\ (ln.1.1 == inject_Z xy.1 + (r # 2))%Q /\ (ln.1.2 == inject_Z xy.2 + (r # 2))%Q /\
    ln.2 !! i = Some (Some (numQ (length (cell_points r xy.1 xy.2 d))))) (cf_lines f)) as [M HM].
  { intros [[qx qy] cs] Hin. destruct (H1 qx qy cs Hin) as (x & y & A1 & A2 & A3 & A4 & A5 & A6). exists (x, y). cbn [fst snd]. repeat (split; [done|]).
    destruct (lookup_lt_is_Some_2 cs i) as [v Hv]; [rewrite A5; by eapply lookup_lt_Some|]. destruct (A6 i "density" v Hi Hv) as (_ & B & _). by rewrite Hv, B. }
  assert (E : omap id (omap (fun ln : Q * Q * list cell => ln.2 !! i) (cf_lines f)) = map (fun xy => numQ (length (cell_points r xy.1 xy.2 d))) M).
  { clear -HM. induction HM as [|ln xy L M (_ & _ & _ & _ & H) HM IH]; [done|]. cbn. rewrite H. cbn. by rewrite IH. }
  rewrite E, <- (numQ_sum (fun xy => length (cell_points r xy.1 xy.2 d))). rewrite cells_count; [reflexivity|done| | |].
  - apply NoDup_alt. intros a b [x y] Ha Hb. destruct (Forall2_lookup_r _ _ _ _ _ HM Ha) as (l1 & L1 & _ & _ & P1 & P2 & _). destruct (Forall2_lookup_r _ _ _ _ _ HM Hb) as (l2 & L2 & _ & _ & P3 & P4 & _).
    cbn [fst snd] in *. apply (H3 a b l1 l2 L1 L2); [rewrite P1, P3; reflexivity|rewrite P2, P4; reflexivity].
  - apply Forall_forall. intros xy (a & Ha)%elem_of_list_lookup. destruct (Forall2_lookup_r _ _ _ _ _ HM Ha) as (l1 & L1 & B1 & B2 & _). done.
  - intros p Hp. destruct (H2 p Hp) as (ln & (a & Ha)%elem_of_list_lookup & E1 & E2). destruct (Forall2_lookup_l _ _ _ _ _ HM Ha) as ([x y] & Hxy & _ & _ & P1 & P2 & _). cbn [fst snd] in *.
    assert (G1 : (inject_Z x == inject_Z (r * (px p / r)))%Q) by lra. assert (G2 : (inject_Z y == inject_Z (r * (py p / r)))%Q) by lra. rewrite inject_Z_injective in G1, G2. subst. by eapply elem_of_list_lookup_2.
Qed.
