(** Facts about the area covered by variable resolution grids (C139). *)
From Coq Require Import Lqa.
From Verif Require GridAutoFacts.
From Verif Require Import Py Nd Numpy Point Bin Algorithms Tile Time Meta Disk Grid GridRun GridQuery GridOps Export
  Spec TileExec GridExec WholeSpec SameSpec SquaresSpec PyFacts NdFacts AlgFacts GridBaseFacts GridPropFacts GridHistFacts GridRunFacts GridUpdateFacts GridContainerFacts GridCountFacts GridDensityFacts TileGridFacts SqmFacts GridSameFacts SquaresFacts GridFlagFacts GridRootFacts GridCleanFacts CoverFacts
  Properties_GridCount.
Open Scope Z_scope.

Lemma vr_counted e size sub b zarr disk g ct a dask r :
  0 < size -> 0 < sub -> vr_clean e known_args size sub b zarr disk g ct -> known_args a -> ga_rez a = Some r -> ga_clear a = true ->
  exn_of (g_grid vr_ops e g a dask) = None ->
  forall k sg j t, tile_at (st_of (g_grid vr_ops e g a dask)) k = Some sg -> tile_at sg j = Some t -> counted r t.
Proof.
  intros Hs Hsub H HA Hr Hc Hx k sg' j t' Ht' Hj.
  destruct (vr_clean_inv e (fun _ _ => True) known_args size sub b zarr disk Hs Hsub (fun a Pa => known_allows a Pa) g ct H) as (_ & seen & ok & HI).
  destruct (tile_at g k) as [sg|] eqn:Ht; [|by rewrite (gd_none _ _ _ _ _ _ (vr_finished e g a dask (vr_origins g) Hx) k Ht) in Ht'].
  destruct (vr_done_tile e g a dask Hx) as (rez & Hrez & HT). destruct (HT k sg Ht) as (t2 & Ht2 & HD). rewrite Ht2 in Ht'. injection Ht' as ->.
  assert (Hsk : skip_tile vr_ops a (ga_clear a) sg = false).
  { unfold skip_tile. rewrite Hc. cbn. by rewrite andb_false_r. }
  rewrite Hsk in HD. destruct HD as (bd & _ & HD). cbv zeta in HD.
  pose proof (allows_nested vr_ops e (fun _ _ => True) g a rez (g_meta g) (ga_clear a) bd (known_allows a HA) Hrez) as [HA' _].
  assert (Hr' : ga_rez (call_args vr_ops a (grid_auto a) rez (g_meta g) (ga_clear a) bd) = Some r).
  { unfold call_rez, grid_auto, tile_rez, call_args in *. rewrite Hr in *. injection Hrez as <-. done. }
  assert (Hc' : ga_clear (call_args vr_ops a (grid_auto a) rez (g_meta g) (ga_clear a) bd) = true) by exact Hc.
  set (a' := call_args _ _ _ _ _ _ _) in *. destruct HD as (Hx2 & -> & _).
  destruct (root_rep _ _ _ _ _ _ _ _ HI Ht) as (x & y & ct' & [HC _] & Hne).
  eapply (sr_all_counted e (fun _ _ => True) sub false Hsub sg a' None r); try done; [by eapply child_origins|intros j0 t Hj0; by eapply child_rep|by left].
Qed.

Lemma subs_cover e r (sgs : list sr_grid) (f : tile -> nat) :
  (forall sg t, sg ∈ sgs -> t ∈ live_tiles sg -> t_coverage_area e t = Ok (qsum [round3 (numQ (f t) * (metres e r * metres e r))%Q]) /\ exists l, t_density_count t = Ok l /\ length l = f t) ->
  let ts := concat (map live_tiles sgs) in
  exists qs ls, rmap (g_coverage_area sr_ops e) sgs = Ok qs /\ rmap (g_density_count sr_ops) sgs = Ok ls /\ length (concat ls) = list_sum (map f ts) /\
    (Qabs (qsum qs - numQ (list_sum (map f ts)) * (metres e r * metres e r)) <= numQ (length ts) * (1 # 2000))%Q /\
    ((exists k, metres e r * metres e r * 1000 == inject_Z k)%Q -> (qsum qs == numQ (list_sum (map f ts)) * (metres e r * metres e r))%Q).
Proof.
  set (c := (metres e r * metres e r)%Q). induction sgs as [|sg sgs IH]; intros H ts.
  - exists [], []. do 3 (split; [done|]). assert (E0 : (numQ 0 * c == 0)%Q) by (change (numQ 0) with 0%Q; apply Qmult_0_l). split; [|intros _; symmetry; exact E0].
    change (list_sum (map f ts)) with 0%nat. rewrite E0. discriminate.
  - destruct IH as (qs & ls & H1 & H2 & H3 & H4 & H5); [intros u t Hu; apply H; by right|].
    destruct (tiles_cover e r (live_tiles sg) f) as (qs' & ls' & T1 & T2 & T3 & T4 & T5); [intros t Ht; apply (H sg t); [left|done]|]. fold c in T4, T5.
    assert (N : forall a b, (numQ (a + b) == numQ a + numQ b)%Q) by (intros; unfold numQ; by rewrite Nat2Z.inj_add, inject_Z_plus).
    assert (G1 : g_coverage_area sr_ops e sg = Ok (qsum qs')) by (unfold g_coverage_area; cbn [sr_ops op_coverage]; by rewrite T1).
    assert (G2 : g_density_count sr_ops sg = Ok (concat ls')) by (unfold g_density_count; cbn [sr_ops op_density_count]; by rewrite T2).
    cbn [rmap]. rewrite G1, G2. cbn [rbind]. rewrite H1, H2. cbn [rbind]. eexists _, _. split; [reflexivity|]. split; [reflexivity|].
    unfold ts. cbn [map concat]. rewrite map_app, list_sum_app, !app_length, H3, T3. split; [done|].
    set (n := list_sum (map f (concat _))) in *. set (n' := list_sum (map f (live_tiles sg))) in *. cbn [qsum foldr]. fold (qsum qs). split.
    + rewrite !N. apply Qabs_Qle_condition in T4, H4. apply Qabs_Qle_condition. split; lra.
    + intros Hk. rewrite N, H5, T5 by done. lra.
Qed.

Lemma vr_cover e alg r size sub zarr disk g ct a dask :
  alg = "mean" \/ alg = "shoalest" -> 0 < r -> ct <> [] -> 0 < size -> 0 < sub -> size mod sub = 0 -> sub mod r = 0 ->
  vr_clean e known_args size sub false zarr disk g ct -> only_args alg r a -> ga_clear a = true -> exn_of (g_grid vr_ops e g a dask) = None ->
  let g' := st_of (g_grid vr_ops e g a dask) in
  let n := length (squares r (all_points ct)) in
  exists q l, g_coverage_area vr_ops e g' = Ok q /\ g_density_count vr_ops g' = Ok l /\ length l = n /\
    (Qabs (q - numQ n * (metres e r * metres e r)) <= numQ (length (vr_tiles g')) * (1 # 2000))%Q /\
    ((exists k, metres e r * metres e r * 1000 == inject_Z k)%Q -> (q == numQ n * (metres e r * metres e r))%Q).
Proof.
  intros Ha Hr Hne Hs Hsub Hm1 Hm2 H Ho Hc Hx g' n. pose proof Ha as Ha'. destruct (simple_cases _ Ha) as [sa ->].
  pose proof Ho as [Ho1 Ho2]. destruct (vr_squares e (alg_name sa) r ct Ha' Hr Hne size sub zarr disk g a dask g' Hs Hsub Hm1 Hm2 H Ho (fun _ => Hc) Hx (Q_none _ _ _)) as [HC HS].
  destruct (vr_after e sa r a dask ct Ho (fun _ => Hc) size sub false zarr disk g g' Hs Hsub H Hx (Q_none _ _ _)) as [_ HN].
  assert (HR : vr_reflects e (alg_name sa) r size sub ct g').
  { apply (vr_reflects_current e known_args (fun _ h => h) sa r size sub false zarr disk Hs Hsub g' ct HC). intros k sg j t Hk. by apply (HN k sg). }
  assert (HP : forall sg t, sg ∈ live_tiles g' -> t ∈ live_tiles sg -> positives t r "density" = populated t r "depth").
  { intros sg t (k & Hk)%live_tile_at (j & Hj)%live_tile_at.
    destruct (vr_clean_inv e (fun _ _ => True) known_args size sub false zarr disk Hs Hsub (fun a Pa => known_allows a Pa) g' ct HC) as (_ & seen & ok & HI).
    destruct (root_origin _ _ _ _ _ _ _ _ HI Hk) as (x & y & Hxy). destruct (root_rep _ _ _ _ _ _ _ _ HI Hk) as (x' & y' & ct' & [HCh _] & _).
    destruct (GridAutoFacts.child_origin _ _ _ _ _ _ _ _ _ HCh Hj) as (u & v & Huv).
    destruct (C47_points_vr e _ r size sub ct g' Ha' HR x y sg u v t (ex_intro _ k (conj Hxy Hk)) (ex_intro _ j (conj Huv Hj))) as (m & _ & -> & ->). done. }
  pose proof (vr_counted e size sub false zarr disk g ct a dask r Hs Hsub H (only_known _ r a Ha' Ho) Ho2 Hc Hx) as HK. fold g' in HK.
  destruct (subs_cover e r (live_tiles g') (fun t => populated t r "depth")) as (qs & ls & T1 & T2 & T3 & T4 & T5).
  { intros sg t Hsg Ht. rewrite <- (HP sg t Hsg Ht). destruct (vr_tile_ok _ _ _ _ _ _ _ _ _ _ Hs Hsub HC Hsg Ht) as (G1 & G2 & _).
    apply live_tile_at in Hsg as (k & Hk), Ht as (j & Hj). apply tile_one; [done|done|by eapply HK]. }
  fold (vr_tiles g') in T3, T4, T5. rewrite HS in T3, T4, T5. fold n in T3, T4, T5. exists (qsum qs), (concat ls).
  assert (G1 : g_coverage_area vr_ops e g' = Ok (qsum qs)) by (unfold g_coverage_area; cbn [vr_ops grid_ops op_coverage]; by rewrite T1).
  assert (G2 : g_density_count vr_ops g' = Ok (concat ls)) by (unfold g_density_count; cbn [vr_ops grid_ops op_density_count]; by rewrite T2).
  done.
Qed.
