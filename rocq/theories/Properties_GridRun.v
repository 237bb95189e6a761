(** Properties of BathyGrid.grid(), sequential and parallel: C22-C26. *)
From Coq Require Import Lqa.
From Verif Require Import Py Nd Numpy Point Bin Algorithms Tile Time Meta Disk Grid GridRun GridQuery GridOps
  Spec TileExec GridExec Samples GridSamples PyFacts NdFacts NumpyFacts AlgFacts BinFacts TileFacts TileGridFacts TileRunFacts TileHistFacts ShoalFacts TilePropFacts TileQueryFacts
  GridBaseFacts GridPlaceFacts GridInvFacts GridRootFacts GridEvolveFacts GridSrFacts GridPropFacts GridHistFacts GridRunFacts GridCleanFacts
  GridUpdateFacts GridDensityFacts GridFlagFacts.
Open Scope Z_scope.

(** ** C22 *)
(** Single resolution grids: with any number of workers, clearing or not. *)
Theorem C22_sr_update_is_full_partial e alg r size b zarr disk g ct a a' dask dask' :
  alg = "mean" \/ alg = "shoalest" -> 0 < size -> is_power_of_two (metres e r) = true ->
  sr_clean e (only_args alg r) size b zarr disk g ct -> ct <> [] ->
  only_args alg r a -> ga_regrid a = "update" -> only_args alg r a' -> ga_regrid a' = "full" ->
  let up := g_grid sr_ops e g a dask in let full := g_grid sr_ops e g a' dask' in
  exn_of up = None /\ exn_of full = None /\
  forall k, match tile_at (st_of up) k, tile_at (st_of full) k with
            | Some t, Some t' => same_tile e b r t t'
            | None, None => True
            | _, _ => False
            end.
Proof.
  intros HA Hs Hp H Hne Ha _ Ha' _ up full.
  assert (HM : forall a, only_args alg r a -> mismatch g a = false).
  { intros a0 [H0 _]. eapply (alg_mismatch _ (only_args alg r)); [by intros a1 [? _]|done|].
    eapply sr_clean_alg; [exact Hs| |exact H]. intros a1 H1. by eapply only_known. }
  assert (HX : forall a dask, only_args alg r a -> exn_of (g_grid sr_ops e g a dask) = None).
  { intros a0 d0 H0. eapply (sr_grid_returns e (only_args alg r)); [exact Hs|intros a1 H1; by eapply only_known|exact H|done|by apply HM|by eapply only_known|apply H0|done|].
    destruct H0 as [-> _]. destruct HA as [->| ->]; done. }
  split; [by apply HX|]. split; [by apply HX|]. intros k. apply simple_cases in HA as (sa & ->).
  pose proof (sr_only_current e size b zarr disk sa r g ct a dask Hs H Ha (HX _ _ Ha) k) as H1.
  pose proof (sr_only_current e size b zarr disk sa r g ct a' dask' Hs H Ha' (HX _ _ Ha') k) as H2.
  cbv zeta in H1, H2. fold up in H1. fold full in H2.
  destruct (tile_at g k) as [t|] eqn:Ht, (tile_at (st_of up) k) as [t1|], (tile_at (st_of full) k) as [t2|]; try done.
  destruct H1 as [K1 C1], H2 as [K2 C2]. eapply current_same; [exact K1|exact K2|apply tile_keeps_refl| |exact C1|exact C2].
  destruct (sr_clean_inv e _ _ size b zarr disk Hs (plain_allows sa r) g ct H) as (_ & seen & ok & HI).
  destruct (root_rep _ _ _ _ _ _ _ _ HI Ht) as (x & y & ct' & ((HQ & _) & _) & _). by destruct HQ as (_ & _ & _ & ->).
Qed.
Print Assumptions C22_sr_update_is_full_partial.
(** Variable resolution grids. *)
Theorem C22_vr_update_is_full_partial e alg r size sub b zarr disk g ct a a' dask dask' :
  alg = "mean" \/ alg = "shoalest" -> 0 < size -> 0 < sub -> is_power_of_two (metres e r) = true ->
  vr_clean e (only_args alg r) size sub b zarr disk g ct -> ct <> [] ->
  only_args alg r a -> ga_regrid a = "update" -> only_args alg r a' -> ga_regrid a' = "full" ->
  let up := g_grid vr_ops e g a dask in let full := g_grid vr_ops e g a' dask' in
  exn_of up = None /\ exn_of full = None /\
  forall k j, match tile_at (st_of up) k, tile_at (st_of full) k with
              | Some sg, Some sg' =>
                  match tile_at sg j, tile_at sg' j with
                  | Some t, Some t' => same_tile e false r t t'
                  | None, None => True
                  | _, _ => False
                  end
              | None, None => True
              | _, _ => False
              end.
Proof.
  intros HA Hs Hsub Hp H Hne Ha _ Ha' _ up full. apply simple_cases in HA as (sa & ->).
  assert (HX : forall a dask, only_args (alg_name sa) r a -> exn_of (g_grid vr_ops e g a dask) = None).
  { intros a0 d0 [H0 H0']. eapply (vr_grid_returns e (only_args (alg_name sa) r)); [exact Hs|exact Hsub| |exact H|done| |exact H0|exact H0'|done].
    - intros a1 [H1 _]. by eapply simple_known.
    - eapply (alg_mismatch _ (only_args (alg_name sa) r)); [by intros a1 [? _]|done|]. by eapply vr_clean_alg. }
  split; [by apply HX|]. split; [by apply HX|]. intros k j.
  pose proof (vr_only_current e size sub b zarr disk Hs Hsub sa r g ct a dask H Ha (HX _ _ Ha) k) as H1.
  pose proof (vr_only_current e size sub b zarr disk Hs Hsub sa r g ct a' dask' H Ha' (HX _ _ Ha') k) as H2.
  cbv zeta in H1, H2. fold up in H1. fold full in H2.
  destruct (tile_at g k) as [sg|] eqn:Hg, (tile_at (st_of up) k) as [s1|], (tile_at (st_of full) k) as [s2|]; try done.
  specialize (H1 j). specialize (H2 j).
  destruct (tile_at sg j) as [t|] eqn:Ht, (tile_at s1 j) as [t1|], (tile_at s2 j) as [t2|]; try done.
  destruct H1 as [K1 C1], H2 as [K2 C2]. eapply current_same; [exact K1|exact K2|apply tile_keeps_refl| |exact C1|exact C2].
  destruct (vr_clean_inv e _ _ size sub b zarr disk Hs Hsub (plain_allows sa r) g ct H) as (_ & seen & ok & HI).
  destruct (root_rep _ _ _ _ _ _ _ _ HI Hg) as (x & y & ct' & (HC & _) & _).
  destruct (child_rep _ _ _ _ _ _ _ _ _ HC Ht) as (u & v & ct2 & ((HQ & _) & _) & _). by destruct HQ as (_ & _ & _ & ->).
Qed.
Print Assumptions C22_vr_update_is_full_partial.
(** Two tiles are skipped or regridded differently, with the same result. *)
Example C22_case :
  map t_changed (live_tiles run_2) = [true; false; false] /\
  map (fun t => option_map nflat (layer_of t 4 "depth")) (live_tiles (sr_run env_s run_2 mean_4_up)) =
  map (fun t => option_map nflat (layer_of t 4 "depth")) (live_tiles (sr_run env_s run_2 mean_4)) /\
  map (fun t => option_map nflat (layer_of t 4 "depth")) (live_tiles (sr_run env_s run_2 mean_4_up)) =
    [Some [None; Some (55 # 2); None; None]; Some [Some 10; None; Some 30; None]; Some [Some 7; Some 20; None; None]]%Q.
Proof. vm_compute. by repeat split. Qed.

(** With CUBE it is false: new points near the border of the next tile do not cause a tile to be
    gridded again, although they are among the points CUBE is given. *)
Theorem C22_cube_update_refuted :
  exists e r size g ct k t t', sr_clean e (only_args "cube" r) size false false false g ct /\
    exn_of (g_grid sr_ops e g (grid_args "cube" r false "update") None) = None /\
    exn_of (g_grid sr_ops e g (grid_args "cube" r false "full") None) = None /\
    tile_at (sr_run e g (grid_args "cube" r false "update")) k = Some t /\
    tile_at (sr_run e g (grid_args "cube" r false "full")) k = Some t' /\
    layer_of t r "depth" <> layer_of t' r "depth".
Proof.
  exists env_count, 4, 8, cube_2, [("one", [Point 1 1 10 1 1; Point 12 4 20 1 1]); ("two", [Point 8 4 30 1 1])], 0%nat.
  eexists _, _. split.
  { apply (CH_add _ _ _ _ cube_1 [("one", [Point 1 1 10 1 1; Point 12 4 20 1 1])] [Point 8 4 30 1 1] (args_of "two")); [|by vm_compute].
    apply (CH_grid _ _ _ _ cube_0 _ (grid_args "cube" 4 false "full") None); [|done|by vm_compute].
    apply (CH_add _ _ _ _ (create_sr 8 false false false) [] [Point 1 1 10 1 1; Point 12 4 20 1 1] (args_of "one")); [apply CH_new|by vm_compute]. }
  split; [by vm_compute|]. split; [by vm_compute|]. split; [vm_compute; reflexivity|]. split; [vm_compute; reflexivity|].
  vm_compute. congruence.
Qed.
Print Assumptions C22_cube_update_refuted.

(** ** C23 *)
(** A tile with no changes, and with none in the tiles before it, is left exactly as it is. *)
Theorem C23_sr_untouched_partial e size b zarr disk g ct seen ok a dask k t :
  0 < size -> sr_history e size b zarr disk g ct seen ok ->
  ga_regrid a = "update" -> ga_clear a = false -> exn_of (g_grid sr_ops e g a dask) = None ->
  tile_at g k = Some t -> (forall j t', (j <= k)%nat -> tile_at g j = Some t' -> t_changed t' = false) ->
  tile_at (st_of (g_grid sr_ops e g a dask)) k = Some t.
Proof.
  intros Hs H Hr Hc Hx Ht Hall. pose proof (root_origins sr_ops _ _ _ _ _ _ (sr_inv e size b zarr disk Hs _ _ _ _ H)) as Ho.
  destruct (sr_done_tile e g a dask Ho Hx) as (rez & _ & HT). destruct (HT k t Ht) as (t' & Ht' & HS). cbv zeta in HS.
  rewrite unchanged_skipped in HS by done. by destruct HS as [-> _].
Qed.
Print Assumptions C23_sr_untouched_partial.
(** In a variable resolution grid each sub-grid is looked at by itself. *)
Theorem C23_vr_untouched_partial e size sub b zarr disk g ct seen ok a dask k sg :
  0 < size -> 0 < sub -> vr_history e size sub b zarr disk g ct seen ok ->
  ga_regrid a = "update" -> ga_clear a = false -> exn_of (g_grid vr_ops e g a dask) = None ->
  tile_at g k = Some sg -> (forall j t, tile_at sg j = Some t -> t_changed t = false) ->
  tile_at (st_of (g_grid vr_ops e g a dask)) k = Some sg.
Proof.
  intros Hs Hsub H Hr Hc Hx Ht Hall. destruct (vr_done_tile e g a dask Hx) as (rez & _ & HT). destruct (HT k sg Ht) as (t' & Ht' & HS).
  assert (E : skip_tile vr_ops a (ga_clear a) sg = true).
  { unfold skip_tile. rewrite Hr, Hc. cbn [vr_ops grid_ops op_changed]. by rewrite all_unchanged. }
  rewrite E in HS. by destruct HS as [-> _].
Qed.
Print Assumptions C23_vr_untouched_partial.
(** Used with one algorithm and resolution only, the layers of every unchanged tile stay as they are. *)
Theorem C23_sr_layers_partial e alg r size b zarr disk g ct a dask k t :
  alg = "mean" \/ alg = "shoalest" -> 0 < size -> sr_clean e (only_args alg r) size b zarr disk g ct ->
  only_args alg r a -> ga_regrid a = "update" -> exn_of (g_grid sr_ops e g a dask) = None ->
  tile_at g k = Some t -> t_changed t = false ->
  exists t', tile_at (st_of (g_grid sr_ops e g a dask)) k = Some t' /\ same_tile e b r t t'.
Proof.
  intros (sa & ->)%simple_cases Hs H Ha _ Hx Ht Hc.
  pose proof (sr_only_current e size b zarr disk sa r g ct a dask Hs H Ha Hx k) as H1. cbv zeta in H1. rewrite Ht in H1.
  destruct (tile_at (st_of _) k) as [t'|]; [|done]. destruct H1 as [K C]. exists t'. split; [done|].
  destruct (sr_clean_inv e _ _ size b zarr disk Hs (plain_allows sa r) g ct H) as (_ & seen & ok & HI).
  destruct (root_rep _ _ _ _ _ _ _ _ HI Ht) as (x & y & ct' & HR & Hne).
  eapply current_same; [apply tile_keeps_refl|exact K|apply tile_keeps_refl| |by eapply steps_unchanged|exact C].
  destruct HR as ((HQ & _) & _). by destruct HQ as (_ & _ & _ & ->).
Qed.
Print Assumptions C23_sr_layers_partial.
(** It is false in general: once one tile has been gridded, existing grids are cleared in all the tiles
    that follow. *)
Theorem C23_update_refuted :
  exists e size g ct a k t t', sr_clean e known_args size false false true g ct /\
    ga_regrid a = "update" /\ ga_clear a = false /\ exn_of (g_grid sr_ops e g a None) = None /\
    tile_at g k = Some t /\ t_changed t = false /\
    tile_at (sr_run e g a) k = Some t' /\ layer_of t 8 "depth" <> None /\ layer_of t' 8 "depth" = None.
Proof.
  exists env_s, 8, two_rez_more, ct_3, mean_4_up, 6%nat. eexists _, _. split.
  { apply (CH_add _ _ _ _ two_rez ct_2 pts_three (args_of "three")); [|by vm_compute].
    apply (CH_grid _ _ _ _ run_1 ct_2 mean_8 None); [|apply elem_of_list_here|by vm_compute].
    apply (CH_grid _ _ _ _ sr_2 ct_2 mean_4 None); [apply sr_2_clean|apply elem_of_list_here|by vm_compute]. }
  split; [done|]. split; [done|]. split; [by vm_compute|]. split; [vm_compute; reflexivity|]. split; [by vm_compute|].
  split; [vm_compute; reflexivity|]. split; [by vm_compute|by vm_compute].
Qed.
Print Assumptions C23_update_refuted.
Example C23_case :
  map t_changed (live_tiles (sr_add run_1 [Point 14 7 9 1 1] "z")) = [false; false; true] /\
  take 2 (live_tiles (sr_run env_s (sr_add run_1 [Point 14 7 9 1 1] "z") mean_4_up)) = take 2 (live_tiles run_1).
Proof. vm_compute. by split. Qed.

(** ** C24 *)
(** Every location of the grid: its tile has the layers of its points, when clearing, or with any other
    regrid option, after any history. *)
Theorem C24_sr_full_partial e alg r size b zarr disk g ct a dask :
  alg = "mean" \/ alg = "shoalest" -> 0 < size -> sr_clean e known_args size b zarr disk g ct ->
  only_args alg r a -> (ga_regrid a = "update" -> ga_clear a = true) -> exn_of (g_grid sr_ops e g a dask) = None ->
  sr_reflects e alg r size b ct (st_of (g_grid sr_ops e g a dask)).
Proof.
  intros (sa & ->)%simple_cases Hs H [Ha Hr] Hu Hx. eapply sr_full_reflects; try done. by apply given_rez.
Qed.
Theorem C24_vr_full_partial e alg r size sub b zarr disk g ct a dask :
  alg = "mean" \/ alg = "shoalest" -> 0 < size -> 0 < sub -> vr_clean e known_args size sub b zarr disk g ct ->
  only_args alg r a -> (ga_regrid a = "update" -> ga_clear a = true) -> exn_of (g_grid vr_ops e g a dask) = None ->
  vr_reflects e alg r size sub ct (st_of (g_grid vr_ops e g a dask)).
Proof. intros (sa & ->)%simple_cases Hs Hsub H Ha Hu Hx. by eapply vr_full_reflects. Qed.
(** With 'update' when only one algorithm and one resolution have been used. *)
Theorem C24_sr_one_resolution_partial e alg r size b zarr disk g ct a dask :
  alg = "mean" \/ alg = "shoalest" -> 0 < size -> sr_clean e (only_args alg r) size b zarr disk g ct ->
  only_args alg r a -> ga_regrid a = "update" -> exn_of (g_grid sr_ops e g a dask) = None ->
  sr_reflects e alg r size b ct (st_of (g_grid sr_ops e g a dask)).
Proof. intros (sa & ->)%simple_cases Hs H Ha _ Hx. by eapply sr_only_reflects. Qed.
Theorem C24_vr_one_resolution_partial e alg r size sub b zarr disk g ct a dask :
  alg = "mean" \/ alg = "shoalest" -> 0 < size -> 0 < sub -> vr_clean e (only_args alg r) size sub b zarr disk g ct ->
  only_args alg r a -> ga_regrid a = "update" -> exn_of (g_grid vr_ops e g a dask) = None ->
  vr_reflects e alg r size sub ct (st_of (g_grid vr_ops e g a dask)).
Proof. intros (sa & ->)%simple_cases Hs Hsub H Ha _ Hx. by eapply vr_only_reflects. Qed.
Print Assumptions C24_sr_full_partial.
Print Assumptions C24_vr_full_partial.
Print Assumptions C24_sr_one_resolution_partial.
Print Assumptions C24_vr_one_resolution_partial.
(** With several resolutions it is false: gridding at the second resolution resets the flag that
    the first one still needs. *)
Definition stale_1 := sr_run env_s (sr_add run_1 pts_four "four") mean_8.
Theorem C24_stale_refuted :
  exists e r size g ct a, sr_clean e known_args size false false true g ct /\
    ga_alg a = "mean" /\ ga_rez a = Some r /\ ga_regrid a = "update" /\ exn_of (g_grid sr_ops e g a None) = None /\
    ~ sr_reflects e "mean" r size false ct (sr_run e g a).
Proof.
  exists env_s, 4, 8, stale_1, (ct_2 ++ [("four", pts_four)]), mean_4_up. split.
  { apply (CH_grid _ _ _ _ (sr_add run_1 pts_four "four") _ mean_8 None); [|apply elem_of_list_here|by vm_compute].
    apply (CH_add _ _ _ _ run_1 ct_2 pts_four (args_of "four")); [|by vm_compute].
    apply (CH_grid _ _ _ _ sr_2 ct_2 mean_4 None); [apply sr_2_clean|apply elem_of_list_here|by vm_compute]. }
  split; [done|]. split; [done|]. split; [done|]. split; [by vm_compute|]. intros H.
  specialize (H 6%nat 0 0 ltac:(by vm_compute)). cbv zeta in H.
  assert (E : tile_at (sr_run env_s stale_1 mean_4_up) 6 = tile_at stale_1 6) by (by vm_compute). rewrite E in H. clear E.
  destruct (tile_at stale_1 6) as [t|] eqn:E; [|by vm_compute in E]. destruct H as (_ & _ & n & dp & ds & _ & _ & _ & Hd & _ & _ & HL & _).
  assert (E2 : layer_of t 4 "density" = Some (Nd 2 2 [Some 1%Q; Some 0%Q; Some 1%Q; Some 0%Q])).
  { vm_compute in E. injection E as <-. by vm_compute. }
  rewrite E2 in Hd. injection Hd as <-. destruct HL as (Hrow & _ & _ & HL). cbn in Hrow. subst n.
  destruct (HL 0%nat 0%nat ltac:(lia) ltac:(lia)) as (v & Hv & Hq). cbn in Hv. injection Hv as <-. vm_compute in Hq. done.
Qed.
Print Assumptions C24_stale_refuted.
Example C24_case : exn_of (g_grid sr_ops env_s stale_1 mean_4 None) = None /\ ga_regrid mean_4 <> "update".
Proof. by vm_compute. Qed.

(** ** C25 *)
(** With or without workers ([d1], [d2]: their number) both calls return normally or both raise; when they
    return, the grids are equal: all tiles with all their layers, the resolutions, the metadata. *)
Theorem C25_sr_parallel e size b zarr disk g ct seen ok a d1 d2 :
  0 < size -> sr_history e size b zarr disk g ct seen ok -> ga_alg a <> "cube" ->
  (exn_of (g_grid sr_ops e g a d1) = None <-> exn_of (g_grid sr_ops e g a d2) = None) /\
  (exn_of (g_grid sr_ops e g a d1) = None -> st_of (g_grid sr_ops e g a d1) = st_of (g_grid sr_ops e g a d2)).
Proof. intros Hs H Ha. eapply sr_dask; [exact Hs|exact H|]. intros. by apply plain_borders. Qed.
Theorem C25_vr_parallel e size sub b zarr disk g ct seen ok a d1 d2 :
  0 < size -> 0 < sub -> vr_history e size sub b zarr disk g ct seen ok -> ga_alg a <> "cube" ->
  (exn_of (g_grid vr_ops e g a d1) = None <-> exn_of (g_grid vr_ops e g a d2) = None) /\
  (exn_of (g_grid vr_ops e g a d1) = None -> st_of (g_grid vr_ops e g a d1) = st_of (g_grid vr_ops e g a d2)).
Proof. intros Hs Hsub H Ha. eapply vr_dask; [exact Hs|exact Hsub|exact H|]. intros. by apply plain_borders. Qed.
Print Assumptions C25_sr_parallel.
Print Assumptions C25_vr_parallel.
(** Three tiles in batches of two, and none of the batches of four is ever full. *)
Example C25_case :
  exn_of (g_grid sr_ops env_s run_2 mean_4 (Some 2%nat)) = None /\
  map (fun t => option_map nflat (layer_of t 4 "depth")) (live_tiles (st_of (g_grid sr_ops env_s run_2 mean_4 (Some 2%nat)))) =
  map (fun t => option_map nflat (layer_of t 4 "depth")) (live_tiles (st_of (g_grid sr_ops env_s run_2 mean_4 (Some 4%nat)))).
Proof. vm_compute. by repeat split. Qed.

(** ** C26 *)
(** The border strips, hence the grids, agree when the resolution is chosen by the grid itself, and when
    three cells are at least a tenth of the tile. *)
Theorem C26_sr_cube_partial e size b zarr disk g ct seen ok a d1 d2 :
  0 < size -> sr_history e size b zarr disk g ct seen ok ->
  match ga_rez a with Some r => size <= 30 * r | None => ga_mode a <> "" end ->
  (exn_of (g_grid sr_ops e g a d1) = None <-> exn_of (g_grid sr_ops e g a d2) = None) /\
  (exn_of (g_grid sr_ops e g a d1) = None -> st_of (g_grid sr_ops e g a d1) = st_of (g_grid sr_ops e g a d2)).
Proof.
  intros Hs H Hr. eapply sr_dask; [exact Hs|exact H|]. intros rez k t Hc Ht. apply (same_borders _ _ _ _ _ _ _ _ _ Hc).
  cbn. by rewrite (sr_tile_width e size b zarr disk g ct seen ok k t Hs H Ht).
Qed.
Print Assumptions C26_sr_cube_partial.
(** Otherwise the parallel code uses a narrower strip than the sequential code. *)
Definition wide_cube := sr_add (create_sr 40 false false false) [Point 10 10 10 1 1; Point 44 10 20 1 1] "one".
Definition first_is (t : tile) (r : Z) (name : string) (q : Q) : bool :=
  match layer_of t r name with
  | Some a => match nflat a with Some v :: _ => Qeq_bool v q | _ => false end
  | None => false
  end.
Theorem C26_cube_refuted :
  exists e size g ct a k t t', sr_history e size false false false g ct (all_points ct) true /\
    ga_alg a = "cube" /\ exn_of (g_grid sr_ops e g a None) = None /\ exn_of (g_grid sr_ops e g a (Some 1%nat)) = None /\
    tile_at (st_of (g_grid sr_ops e g a None)) k = Some t /\ tile_at (st_of (g_grid sr_ops e g a (Some 1%nat))) k = Some t' /\
    layer_of t 1 "depth" <> layer_of t' 1 "depth".
Proof.
  set (a := grid_args "cube" 1 false "full").
  assert (H : match tile_at (st_of (g_grid sr_ops env_count wide_cube a None)) 0, tile_at (st_of (g_grid sr_ops env_count wide_cube a (Some 1%nat))) 0 with
    | Some t, Some t' => first_is t 1 "depth" 2 && negb (first_is t' 1 "depth" 2)
    | _, _ => false end = true) by (by vm_compute).
  destruct (tile_at (st_of (g_grid _ _ _ _ None)) 0) as [t|] eqn:E1; [|done].
  destruct (tile_at (st_of (g_grid _ _ _ _ (Some _))) 0) as [t'|] eqn:E2; [|done].
  apply andb_true_iff in H as [H1 H2%negb_true_iff].
  exists env_count, 40, wide_cube, [("one", [Point 10 10 10 1 1; Point 44 10 20 1 1])], a, 0%nat, t, t'. split.
  { apply (GH_add _ _ _ (create_sr 40 false false false) [] [] true _ (args_of "one")); [apply GH_new|by vm_compute]. }
  split; [done|]. split; [by vm_compute|]. split; [by vm_compute|]. split; [done|]. split; [done|].
  intros E. unfold first_is in *. rewrite E, H2 in H1. done.
Qed.
Print Assumptions C26_cube_refuted.
Example C26_case :
  exn_of (g_grid sr_ops env_count cube_2 (grid_args "cube" 4 false "full") (Some 2%nat)) = None /\ 8 <= 30 * 4.
Proof. by vm_compute. Qed.
