(** Facts about the area covered by single resolution grids (C139). *)
From Coq Require Import Lqa.
From Verif Require Import Py Nd Numpy Point Bin Algorithms Tile Time Meta Disk Grid GridRun GridQuery GridOps Export
  Spec TileExec GridExec WholeSpec SameSpec SquaresSpec PyFacts NdFacts AlgFacts GridBaseFacts GridPropFacts GridUpdateFacts GridContainerFacts GridCountFacts GridDensityFacts TileGridFacts SqmFacts GridSameFacts SquaresFacts GridFlagFacts GridRootFacts GridCleanFacts
  Properties_GridCount.
Open Scope Z_scope.

Lemma tile_one e r t : good e t -> headed t -> counted r t ->
  t_coverage_area e t = Ok (qsum [round3 (numQ (positives t r "density") * (metres e r * metres e r))%Q]) /\ exists l, t_density_count t = Ok l /\ length l = positives t r "density".
Proof.
  intros HG HH (Hr & l & Hc & Hd). split.
  - rewrite tile_coverage by done. unfold dkeys. rewrite Hc. done.
  - unfold t_density_count. rewrite Hc. unfold density_layer. cbn [rmap snd fst]. rewrite Hd. cbn [rofopt rbind]. eexists. split; [reflexivity|].
    cbn [concat]. rewrite app_nil_r. pose proof HH as [Hn _]. assert (Hg : dget (t_cells t) r = Some l) by (rewrite Hc; cbn; by rewrite decide_True).
    destruct (density_some _ _ _ _ HG Hg) as (a & H1 & H2 & H3). rewrite Hd in H1. injection H1 as <-. unfold positives. rewrite H2. unfold positive_counts. by rewrite values_order.
Qed.
(** Thousandths are not rounded. *)
Lemma round3_exact q k : (q * 1000 == inject_Z k)%Q -> (round3 q == q)%Q.
Proof.
  intros H. eapply is_round3_unique; [apply round3_spec|]. exists k. split; [|].
  - unfold Qeq, Qmult, inject_Z in *. cbn in *. lia.
  - assert (E : (q - q == 0)%Q) by lra. split; [rewrite E; discriminate|]. intros E'. rewrite E in E'. discriminate E'.
Qed.
Lemma tiles_cover e r ts (f : tile -> nat) : 
  (forall t, t ∈ ts -> t_coverage_area e t = Ok (qsum [round3 (numQ (f t) * (metres e r * metres e r))%Q]) /\ exists l, t_density_count t = Ok l /\ length l = f t) ->
  exists qs ls, rmap (t_coverage_area e) ts = Ok qs /\ rmap t_density_count ts = Ok ls /\ length (concat ls) = list_sum (map f ts) /\
    (Qabs (qsum qs - numQ (list_sum (map f ts)) * (metres e r * metres e r)) <= numQ (length ts) * (1 # 2000))%Q /\
    ((exists k, metres e r * metres e r * 1000 == inject_Z k)%Q -> (qsum qs == numQ (list_sum (map f ts)) * (metres e r * metres e r))%Q).
Proof.
  set (c := (metres e r * metres e r)%Q). induction ts as [|t ts IH]; intros H.
  - exists [], []. do 3 (split; [done|]). assert (E0 : (numQ 0 * c == 0)%Q) by (change (numQ 0) with 0%Q; apply Qmult_0_l). split; [|intros _; symmetry; exact E0].
    change (list_sum (map f [])) with 0%nat. rewrite E0. discriminate.
  - destruct IH as (qs & ls & H1 & H2 & H3 & H4 & H5); [intros u Hu; apply H; by right|]. destruct (H t) as (T1 & l & T2 & T3); [left|].
    cbn [rmap]. rewrite T1, T2. cbn [rbind]. rewrite H1, H2. cbn [rbind]. eexists _, _. split; [reflexivity|]. split; [reflexivity|].
    assert (N : forall a b, (numQ (a + b) == numQ a + numQ b)%Q) by (intros; unfold numQ; by rewrite Nat2Z.inj_add, inject_Z_plus).
    split; [cbn [concat]; rewrite app_length, H3, T3; done|]. change (list_sum (map f (t :: ts))) with (f t + list_sum (map f ts))%nat. set (n := list_sum (map f ts)) in *.
    set (q := (numQ (f t) * c)%Q). cbn [qsum foldr]. fold (qsum qs). split.
    + destruct (round3_spec q) as (_ & _ & R & _). rewrite N. change (length (t :: ts)) with (1 + length ts)%nat. rewrite N. change (numQ 1) with 1%Q.
      apply Qabs_Qle_condition in R, H4. apply Qabs_Qle_condition. unfold q in *. set (z := round3 (numQ (f t) * c)) in *. split; lra.
    + intros [k Hk]. rewrite N, H5 by (by exists k). rewrite (round3_exact q (Z.of_nat (f t) * k)); [unfold q; lra|]. rewrite inject_Z_mult, <- Hk. unfold q, numQ. lra.
Qed.
Lemma sr_cover e alg r size zarr disk g ct a dask :
  alg = "mean" \/ alg = "shoalest" -> 0 < r -> ct <> [] -> 0 < size -> size mod r = 0 -> sr_clean e known_args size false zarr disk g ct ->
  only_args alg r a -> ga_clear a = true -> exn_of (g_grid sr_ops e g a dask) = None ->
  let g' := st_of (g_grid sr_ops e g a dask) in
  let n := length (squares r (all_points ct)) in
  exists q l, g_coverage_area sr_ops e g' = Ok q /\ g_density_count sr_ops g' = Ok l /\ length l = n /\
    (Qabs (q - numQ n * (metres e r * metres e r)) <= numQ (length (live_tiles g')) * (1 # 2000))%Q /\
    ((exists k, metres e r * metres e r * 1000 == inject_Z k)%Q -> (q == numQ n * (metres e r * metres e r))%Q).
Proof.
  intros Ha Hr Hne Hs Hm H Ho Hc Hx g' n. pose proof Ha as Ha'. destruct (simple_cases _ Ha) as [sa ->].
  pose proof Ho as [Ho1 Ho2]. destruct (sr_squares e (alg_name sa) r ct Ha' Hr Hne size zarr disk g a dask g' Hs Hm H Ho (fun _ => Hc) Hx (Q_none _ _ _)) as [HC HS].
  destruct (sr_after e sa r a dask ct Ho (fun _ => Hc) size false zarr disk g g' Hs H Hx (Q_none _ _ _)) as [_ HN].
  pose proof (sr_reflects_current e known_args (fun _ h => h) sa r size false zarr disk Hs g' ct HC HN) as HR.
  assert (HP : forall t, t ∈ live_tiles g' -> positives t r "density" = populated t r "depth").
  { intros t (k & Ht)%live_tile_at. destruct (sr_clean_inv e (fun _ _ => True) known_args size false zarr disk Hs (fun a Pa => known_allows a Pa) g' ct HC) as (_ & seen & ok & HI).
    destruct (root_origin _ _ _ _ _ _ _ _ HI Ht) as (x & y & Hxy). destruct (C47_points e _ r size false ct g' Ha' HR x y t (ex_intro _ k (conj Hxy Ht))) as (m & _ & -> & ->). done. }
  pose proof (sr_counted e known_args size false zarr disk g ct a dask r Hs (fun _ h => h) H (only_known _ r a Ha' Ho) Ho2 Hx (or_introl Hc)) as HK. fold g' in HK.
  destruct (tiles_cover e r (live_tiles g') (fun t => populated t r "depth")) as (qs & ls & T1 & T2 & T3 & T4 & T5).
  { intros t Ht. rewrite <- (HP t Ht). destruct (sr_tile_ok _ _ _ _ _ _ _ _ Hs HC Ht) as (G1 & G2 & _). apply live_tile_at in Ht as (k & Ht). apply tile_one; [done|done|by eapply HK]. }
  rewrite HS in T3, T4, T5. fold n in T3, T4, T5. exists (qsum qs), (concat ls). unfold g_coverage_area, g_density_count. cbn [sr_ops op_coverage op_density_count].
  rewrite T1, T2. cbn [rbind]. done.
Qed.
