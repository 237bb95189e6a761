(** Properties of a tile: C09, C10, C16-C21, C28, C29, C31-C33, C45, C69, C71, C72. *)
From Coq Require Import Lqa.
From Verif Require Import Py Nd Numpy Point Bin Algorithms Tile Spec TileExec Samples
  PyFacts NdFacts NumpyFacts AlgFacts BinFacts TileFacts TileGridFacts TileSpecFacts TileRunFacts TileHistFacts
  ShoalFacts TilePropFacts TileQueryFacts TileUnknownFacts.
Open Scope Z_scope.

(** The tile of Samples.v with its history. *)
Example tile_s_history :
  tile_history env_s 0 0 8 false tile_s [("one", [pt_a; pt_b]); ("two", [pt_c; pt_d])] true.
Proof.
  apply (TH_add _ _ _ _ _ _ [("one", [pt_a; pt_b])] true [pt_c; pt_d] "two").
  - apply (TH_add _ _ _ _ _ _ [] false [pt_a; pt_b] "one"); [apply TH_new|].
    repeat constructor; cbn; lia.
  - repeat constructor; cbn; lia.
Qed.

(** ** C09 *)
Theorem C09_readd_replaces (ops : list tile_op) (x y s : Z) (b : bool) (d : list point) (c : string) :
  t_data (t_add_points (foldl run_tile_op (new_tile x y s b) ops) d c) =
  Some (all_points (put_c (foldl held_op [] ops) c d)).
Proof.
  pose proof (tile_rep_add _ _ d c (ops_rep ops x y s b)) as HR.
  pose proof (tr_data _ _ HR) as H. unfold pts in H.
  destruct (t_data (t_add_points _ d c)) as [dt|] eqn:E; [cbn in H; by rewrite H|].
  exfalso. apply (tr_none _ _ HR) in E. unfold put_c in E. by destruct (drop_c _ c).
Qed.
Print Assumptions C09_readd_replaces.
Example C09_case :
  t_data (t_add_points tile_s [pt_d] "one") = Some [pt_c; pt_d; pt_d] /\
  all_points (put_c [("one", [pt_a; pt_b]); ("two", [pt_c; pt_d])] "one" [pt_d]) = [pt_c; pt_d; pt_d].
Proof. split; reflexivity. Qed.

(** ** C10 *)
Theorem C10_ranges (ops : list tile_op) (x y s : Z) (b : bool) :
  let t := foldl run_tile_op (new_tile x y s b) ops in
  let held := foldl held_op [] ops in
  t_container t = ranges 0 held /\
  default [] (t_data t) = all_points held /\
  forall c d, (c, d) ∈ held ->
    exists i j, dget (t_container t) c = Some (i, j) /\ slice (default [] (t_data t)) i j = d.
Proof.
  cbv zeta. pose proof (ops_rep ops x y s b) as HR. split; [apply HR|]. split; [apply HR|].
  intros c d Hin. change (default [] (t_data (foldl run_tile_op (new_tile x y s b) ops)))
    with (pts (foldl run_tile_op (new_tile x y s b) ops)).
  rewrite (tr_cont _ _ HR), (tr_data _ _ HR). apply range_slices; [apply HR|done].
Qed.
Print Assumptions C10_ranges.
Example C10_case :
  t_container (foldl run_tile_op (new_tile 0 0 8 false)
    [TAdd [pt_a; pt_b] "one"; TAdd [pt_c] "two"; TAdd [pt_d; pt_a] "three"; TRemove "one"; TAdd [pt_b] "two"]) =
  [("three", (0, 2)%nat); ("two", (2, 3)%nat)].
Proof. reflexivity. Qed.

(** Gridding succeeds on every tile that has been given points. *)
Theorem C16_total e x y s b t ct f alg r clear mode gp border :
  0 < s -> tile_history e x y s b t ct f -> ct <> [] ->
  alg ∈ ["mean"; "shoalest"; "cube"] -> (clear = true \/ same_kind (t_algorithm t) alg) ->
  is_power_of_two (metres e r) = true ->
  (alg = "cube" -> e_cube_enabled e = true /\ has_tvu (e_dt e) = true /\ has_thu (e_dt e) = true) ->
  exists t', t_grid e t alg (Some r) clear mode gp border = Ok (t', r).
Proof.
  intros Hs HH Hct HA HC Hp HQ. destruct (history_rep _ _ _ _ _ _ _ _ Hs HH) as [HR _].
  destruct (t_data t) as [d|] eqn:E; [|by apply (tr_none _ _ HR) in E].
  eapply reach_grid_total; try done. by eapply history_reach.
Qed.
Print Assumptions C16_total.

(** ** C16 *)
Theorem C16_mean e x y s b t ct f ro clear mode gp border t' r :
  0 < s -> tile_history e x y s b t ct f -> (clear = true \/ same_kind (t_algorithm t) "mean") ->
  t_grid e t "mean" ro clear mode gp border = Ok (t', r) ->
  let cell_points row col := points_in_cell x y r row col (all_points ct) in
  exists n l depth density, 0 < r /\ cells_cover s r n /\ dget (t_cells t') r = Some l /\
    dget l (if b then "intensity" else "depth") = Some depth /\ dget l "density" = Some density /\
    layer_is n depth (fun row col => mean_cell (map pz (cell_points row col))) /\
    layer_is n density (fun row col v => v = Some (numQ (length (cell_points row col)))) /\
    (has_tvu (e_dt e) = true -> exists a, dget l "vertical_uncertainty" = Some a /\
       layer_is n a (fun row col => mean_cell (map ptvu (cell_points row col)))) /\
    (has_thu (e_dt e) = true -> exists a, dget l "horizontal_uncertainty" = Some a /\
       layer_is n a (fun row col => mean_cell (map pthu (cell_points row col)))).
Proof.
  intros Hs HH HC Hg cp. pose proof (history_reach _ _ _ _ _ _ _ _ HH) as HR.
  destruct (history_rep _ _ _ _ _ _ _ _ Hs HH) as [Hrep _].
  destruct (reach_grid_simple _ _ _ _ _ _ _ Mean _ _ _ _ _ _ _ Hs HR HC Hg)
    as (HG & HQ & Hr & l & o & Hl & Ho & D1 & D2 & D3 & D4).
  destruct (fresh_out_spec e t Mean r (pts t) o (g_size _ _ HG) Hr (g_in _ _ HG) Ho) as (_ & _ & S3 & S4).
  assert (Hcp : forall row col, tile_cell t r row col (pts t) = cp row col).
  { intros. unfold cp. rewrite (tr_data _ _ Hrep). by eapply tile_cell_square. }
  exists (ncell t r), l, (depth_spec t Mean r pz (pts t)), (density_spec t r (pts t)).
  split; [done|]. split; [destruct HQ as (_ & _ & <- & _); apply ncell_cover; [apply HG|done]|].
  split; [done|]. split; [done|]. split; [done|].
  split; [eapply layer_impl; [apply depth_spec_mean|]; intros row col v _ _; cbv beta; by rewrite Hcp|].
  split; [eapply layer_impl; [apply density_spec_layer|]; intros row col v _ _; cbv beta; by rewrite Hcp|].
  split; intros Hb.
  - exists (depth_spec t Mean r ptvu (pts t)). rewrite <- S3 by done. split; [by apply D3|]. rewrite S3 by done.
    eapply layer_impl; [apply depth_spec_mean|]; intros row col v _ _; cbv beta; by rewrite Hcp.
  - exists (depth_spec t Mean r pthu (pts t)). rewrite <- S4 by done. split; [by apply D4|]. rewrite S4 by done.
    eapply layer_impl; [apply depth_spec_mean|]; intros row col v _ _; cbv beta; by rewrite Hcp.
Qed.
Print Assumptions C16_mean.
(** The 8 x 8 tick tile gridded at 4 ticks (1 m). *)
Example C16_case :
  exists t', t_grid env_s tile_s "mean" (Some 4) false "depth" None None = Ok (t', 4) /\
    option_map nflat (dget (layers_at t' 4) "depth") = Some [Some 11; Some 5; None; Some (2333 # 1000)]%Q /\
    option_map nflat (dget (layers_at t' 4) "density") = Some [Some 2; Some 1; Some 0; Some 1]%Q /\
    option_map nflat (dget (layers_at t' 4) "vertical_uncertainty") = Some [Some 2; Some 2; None; Some 4]%Q.
Proof. eexists. split; [vm_compute; reflexivity|]. split; [|split]; vm_compute; reflexivity. Qed.

(** ** C17 *)
Theorem C17_shoalest e x y s b t ct f ro clear mode gp border t' r :
  0 < s -> tile_history e x y s b t ct f -> (clear = true \/ same_kind (t_algorithm t) "shoalest") ->
  t_grid e t "shoalest" ro clear mode gp border = Ok (t', r) ->
  let cell_points row col := points_in_cell x y r row col (all_points ct) in
  exists n l depth density, 0 < r /\ cells_cover s r n /\ dget (t_cells t') r = Some l /\
    dget l (if b then "intensity" else "depth") = Some depth /\ dget l "density" = Some density /\
    layer_is n depth (fun row col => least_cell (map pz (cell_points row col))) /\
    layer_is n density (fun row col v => v = Some (numQ (length (cell_points row col)))).
Proof.
  intros Hs HH HC Hg cp. pose proof (history_reach _ _ _ _ _ _ _ _ HH) as HR.
  destruct (history_rep _ _ _ _ _ _ _ _ Hs HH) as [Hrep _].
  destruct (reach_grid_simple _ _ _ _ _ _ _ Shoalest _ _ _ _ _ _ _ Hs HR HC Hg)
    as (HG & HQ & Hr & l & o & Hl & Ho & D1 & D2 & _).
  assert (Hcp : forall row col, tile_cell t r row col (pts t) = cp row col).
  { intros. unfold cp. rewrite (tr_data _ _ Hrep). by eapply tile_cell_square. }
  exists (ncell t r), l, (depth_spec t Shoalest r pz (pts t)), (density_spec t r (pts t)).
  split; [done|]. split; [destruct HQ as (_ & _ & <- & _); apply ncell_cover; [apply HG|done]|].
  split; [done|]. split; [done|]. split; [done|].
  split; [eapply layer_impl; [apply depth_spec_least|]; intros row col v _ _; cbv beta; by rewrite Hcp|].
  eapply layer_impl; [apply density_spec_layer|]; intros row col v _ _; cbv beta; by rewrite Hcp.
Qed.
Print Assumptions C17_shoalest.
Example C17_case :
  exists t', t_grid env_s tile_s "shoalest" (Some 4) false "depth" None None = Ok (t', 4) /\
    option_map nflat (dget (layers_at t' 4) "depth") = Some [Some 10; Some 5; None; Some (2333 # 1000)]%Q.
Proof. eexists. split; vm_compute; reflexivity. Qed.

(** ** C18 is false of the code: with soundings a (z 10, tvu 1) in cell (0, 0) and b (z 5, tvu 2) in
    cell (0, 1), the two cells get each other's uncertainty. *)
Theorem C18_shoalest_uncertainty_refuted :
  exists e x y s b t ct f t' r l a row col v,
    0 < s /\ tile_history e x y s b t ct f /\ t_algorithm t = None /\ has_tvu (e_dt e) = true /\
    t_grid e t "shoalest" (Some r) false "depth" None None = Ok (t', r) /\
    dget (t_cells t') r = Some l /\ dget l "vertical_uncertainty" = Some a /\
    nd_get a row col = Some (Some v) /\ points_in_cell x y r row col (all_points ct) <> [] /\
    ~ exists p, p ∈ points_in_cell x y r row col (all_points ct) /\
        is_min (map pz (points_in_cell x y r row col (all_points ct))) (pz p) /\ is_round3 (ptvu p) v.
Proof.
  set (t0 := t_add_points (new_tile 0 0 8 false) [pt_a; pt_b] "one").
  destruct (t_grid env_s t0 "shoalest" (Some 4) false "depth" None None) as [[t' r]|x] eqn:E; [|by vm_compute in E].
  exists env_s, 0, 0, 8, false, t0, [("one", [pt_a; pt_b])], true, t', r.
  vm_compute in E. injection E as <- <-. cbv zeta.
  eexists _, _, 0%nat, 0%nat, 2%Q.
  split; [lia|]. split; [apply (TH_add _ _ _ _ _ _ [] false [pt_a; pt_b] "one"); [apply TH_new|]; repeat constructor; cbn; lia|].
  split; [reflexivity|]. split; [reflexivity|]. split; [vm_compute; reflexivity|].
  split; [reflexivity|]. split; [reflexivity|]. split; [reflexivity|].
  assert (Hc : points_in_cell 0 0 4 0 0 (all_points [("one", [pt_a; pt_b])]) = [pt_a]) by (vm_compute; reflexivity).
  rewrite Hc. split; [done|]. intros (p & Hp & _ & Hr). apply elem_of_list_singleton in Hp as ->.
  destruct Hr as (k & _ & Hr & _). vm_compute in Hr. by apply Hr.
Qed.
(** It holds when the soundings of the tile are stored in strictly ascending order of z. Missing: any
    other order. *)
Theorem C18_shoalest_uncertainty_partial e x y s b t ct f ro clear mode gp border t' r :
  0 < s -> tile_history e x y s b t ct f -> (clear = true \/ same_kind (t_algorithm t) "shoalest") ->
  StronglySorted Qlt (map pz (all_points ct)) -> all_points ct <> [] ->
  t_grid e t "shoalest" ro clear mode gp border = Ok (t', r) ->
  let cell_points row col := points_in_cell x y r row col (all_points ct) in
  exists n l, 0 < r /\ cells_cover s r n /\ dget (t_cells t') r = Some l /\
    (has_tvu (e_dt e) = true -> exists a, dget l "vertical_uncertainty" = Some a /\
       forall row col, (row < n)%nat -> (col < n)%nat -> cell_points row col <> [] ->
       exists p v, p ∈ cell_points row col /\ is_min (map pz (cell_points row col)) (pz p) /\
         is_round3 (ptvu p) v /\ nd_get a row col = Some (Some v)) /\
    (has_thu (e_dt e) = true -> exists a, dget l "horizontal_uncertainty" = Some a /\
       forall row col, (row < n)%nat -> (col < n)%nat -> cell_points row col <> [] ->
       exists p v, p ∈ cell_points row col /\ is_min (map pz (cell_points row col)) (pz p) /\
         is_round3 (pthu p) v /\ nd_get a row col = Some (Some v)).
Proof.
  intros Hs HH HC Hasc Hne Hg cp. pose proof (history_reach _ _ _ _ _ _ _ _ HH) as HR.
  destruct (history_rep _ _ _ _ _ _ _ _ Hs HH) as [Hrep _].
  destruct (reach_grid_simple _ _ _ _ _ _ _ Shoalest _ _ _ _ _ _ _ Hs HR HC Hg)
    as (HG & HQ & Hr & l & o & Hl & Ho & _ & _ & D3 & D4).
  assert (Hcp : forall row col, tile_cell t r row col (pts t) = cp row col).
  { intros. unfold cp. rewrite (tr_data _ _ Hrep). by eapply tile_cell_square. }
  rewrite <- (tr_data _ _ Hrep) in Hasc, Hne.
  pose proof (argsort_sorting_perm (map (cellno t r) (pts t))) as HS.
  rewrite fresh_out_with in Ho.
  destruct (fresh_shoalest_unc _ e t r (pts t) o (g_size _ _ HG) Hr (g_in _ _ HG) HS Ho Hne) as [W1 W2].
  exists (ncell t r), l. split; [done|].
  split; [destruct HQ as (_ & _ & <- & _); apply ncell_cover; [apply HG|done]|]. split; [done|].
  split; intros Hb; (eexists; split; [by (apply D3 || apply D4)|]); intros row col Hrow Hcol Hcell;
    rewrite <- Hcp in Hcell |- *.
  - destruct (shoalest_unc_sorted _ t r (pts t) ptvu (o_tvu o) row col (g_size _ _ HG) Hr (g_in _ _ HG) HS Hasc Hrow Hcol
      (W1 Hb) Hcell) as (p & P1 & P2 & P3).
    exists p, (round3 (ptvu p)). split; [done|]. split; [done|]. split; [apply round3_spec|done].
  - destruct (shoalest_unc_sorted _ t r (pts t) pthu (o_thu o) row col (g_size _ _ HG) Hr (g_in _ _ HG) HS Hasc Hrow Hcol
      (W2 Hb) Hcell) as (p & P1 & P2 & P3).
    exists p, (round3 (pthu p)). split; [done|]. split; [done|]. split; [apply round3_spec|done].
Qed.
Print Assumptions C18_shoalest_uncertainty_refuted.
Print Assumptions C18_shoalest_uncertainty_partial.
Example C18_case :
  StronglySorted Qlt (map pz [pt_d; pt_b; pt_a]) /\
  exists t', t_grid env_s (t_add_points (new_tile 0 0 8 false) [pt_d; pt_b; pt_a] "c") "shoalest" (Some 4) false "depth" None None
    = Ok (t', 4) /\
  option_map nflat (dget (layers_at t' 4) "vertical_uncertainty") = Some [Some 1; Some 2; None; Some 4]%Q.
Proof.
  split; [repeat constructor|]. eexists. split; vm_compute; reflexivity.
Qed.

(** ** C19: a tile that was added to, removed from and gridded any number of times grids to the same
    layers as a fresh tile given the same points under one container. *)
Theorem C19_incremental e x y s b t alg ro clear mode gp border t' r c u :
  0 < s -> tile_reach false e x y s b t -> alg ∈ ["mean"; "shoalest"; "cube"] ->
  (clear = true \/ same_kind (t_algorithm t) alg) ->
  t_grid e t alg ro clear mode gp border = Ok (t', r) ->
  t_grid e (t_add_points (new_tile x y s b) (default [] (t_data t)) c) alg (Some r) false mode gp border = Ok (u, r) ->
  forall name, dget (layers_at t' r) name = dget (layers_at u r) name.
Proof.
  intros Hs HR HA HC Hg Hu name.
  destruct (reach_good _ _ _ _ _ _ _ Hs HR) as (HG & (Q1 & Q2 & Q3 & Q4) & _).
  assert (HR2 : tile_reach false e x y s b (t_add_points (new_tile x y s b) (default [] (t_data t)) c)).
  { apply TR_add; [apply TR_new|]. pose proof (g_in _ _ HG) as HF. unfold in_tile in HF. by rewrite Q1, Q2, Q3 in HF. }
  destruct (incremental _ _ _ _ _ _ _ _ _ _ _ _ _ _ _ _ _ _ _ _ Hs HR HR2 eq_refl HA HC
     (or_intror I) Hg Hu) as (l & l2 & Hl & Hl2 & H1 & H2).
  rewrite (layers_at_get _ _ _ Hl), (layers_at_get _ _ _ Hl2).
  destruct (decide (name ∈ alg_keys e (depth_key_of b) alg)) as [Hin|Hin].
  - by destruct (H1 name Hin).
  - destruct (H2 eq_refl name Hin) as [-> ->]. done.
Qed.
(** With queries in between, every layer that gridding from scratch produces is still the same
    (queries may leave extra layers behind). *)
Theorem C19_incremental_queries e x y s b t alg ro clear mode gp border t' r c u :
  0 < s -> tile_reach true e x y s b t -> alg ∈ ["mean"; "shoalest"; "cube"] ->
  (clear = true \/ same_kind (t_algorithm t) alg) ->
  t_grid e t alg ro clear mode gp border = Ok (t', r) ->
  t_grid e (t_add_points (new_tile x y s b) (default [] (t_data t)) c) alg (Some r) false mode gp border = Ok (u, r) ->
  forall name a, dget (layers_at u r) name = Some a -> dget (layers_at t' r) name = Some a.
Proof.
  intros Hs HR HA HC Hg Hu name a Ha.
  destruct (reach_good _ _ _ _ _ _ _ Hs HR) as (HG & (Q1 & Q2 & Q3 & Q4) & _).
  assert (HF : Forall (fun p => in_square x y s (px p) (py p)) (default [] (t_data t))).
  { pose proof (g_in _ _ HG) as HF. unfold in_tile in HF. by rewrite Q1, Q2, Q3 in HF. }
  assert (HR2 : tile_reach true e x y s b (t_add_points (new_tile x y s b) (default [] (t_data t)) c))
    by (apply TR_add; [apply TR_new|done]).
  assert (HR3 : tile_reach false e x y s b (t_add_points (new_tile x y s b) (default [] (t_data t)) c))
    by (apply TR_add; [apply TR_new|done]).
  destruct (incremental _ _ _ _ _ _ _ _ _ _ _ _ _ _ _ _ _ _ _ _ Hs HR HR2 eq_refl HA HC
     (or_intror I) Hg Hu) as (l & l2 & Hl & Hl2 & H1 & _).
  destruct (incremental _ _ _ _ _ _ _ _ _ _ _ _ _ _ _ _ _ _ _ _ Hs HR3 HR3 eq_refl HA
     (or_intror I) (or_intror I) Hu Hu) as (l3 & l4 & Hl3 & _ & _ & H3).
  assert (l3 = l2) as -> by congruence.
  rewrite (layers_at_get _ _ _ Hl). rewrite (layers_at_get _ _ _ Hl2) in Ha.
  destruct (decide (name ∈ alg_keys e (depth_key_of b) alg)) as [Hin|Hin].
  - destruct (H1 name Hin) as [-> _]. done.
  - destruct (H3 eq_refl name Hin) as [H _]. congruence.
Qed.
Print Assumptions C19_incremental.
Print Assumptions C19_incremental_queries.
(** The tile gridded at 1 m, then given one more sounding and stripped of another container. *)
Example C19_case :
  exists t1 t2 u,
    t_grid env_s tile_s "mean" (Some 4) false "depth" None None = Ok (t1, 4) /\
    t_grid env_s (t_remove_points (t_add_points t1 [pt_a; pt_c] "three") "one") "mean" (Some 4) false "depth" None None = Ok (t2, 4) /\
    t_grid env_s (t_add_points (new_tile 0 0 8 false) [pt_c; pt_d; pt_a; pt_c] "x") "mean" (Some 4) false "depth" None None = Ok (u, 4) /\
    layers_at t2 4 = layers_at u 4 /\ option_map nflat (dget (layers_at u 4) "density") = Some [Some 3; Some 0; Some 0; Some 1]%Q.
Proof. do 3 eexists. split; [vm_compute; reflexivity|]. split; [vm_compute; reflexivity|].
  split; [vm_compute; reflexivity|]. split; vm_compute; reflexivity. Qed.
(** The restriction on switching between CUBE and the others is needed: tile algorithm and layers at a
    resolution can get out of step, and gridding then raises KeyError. *)
Theorem C19_kind_switch_refuted :
  exists e t1 t2 t, t_grid e t "cube" (Some 4) false "depth" None None = Ok (t1, 4) /\
    t_grid e t1 "mean" (Some 8) false "depth" None None = Ok (t2, 8) /\
    t_grid e t2 "mean" (Some 4) false "depth" None None = Raise KeyError.
Proof. exists env_s. do 2 eexists. exists tile_s. split; [vm_compute; reflexivity|]. split; vm_compute; reflexivity. Qed.
Print Assumptions C19_kind_switch_refuted.

(** ** C20, one tile *)
Theorem C20_tile_density e x y s b t ct f alg ro clear mode gp border t' r :
  0 < s -> tile_history e x y s b t ct f -> alg ∈ ["mean"; "shoalest"; "cube"] ->
  (clear = true \/ same_kind (t_algorithm t) alg) ->
  t_grid e t alg ro clear mode gp border = Ok (t', r) ->
  exists l density, dget (t_cells t') r = Some l /\ dget l "density" = Some density /\
    (sumQ (values density) == numQ (length (all_points ct)))%Q /\ t_points_count t' = length (all_points ct).
Proof.
  intros Hs HH HA HC Hg. destruct (history_rep _ _ _ _ _ _ _ _ Hs HH) as [Hrep _].
  destruct (reach_grid _ _ _ _ _ _ _ _ _ _ _ _ _ _ _ Hs (history_reach _ _ _ _ _ _ _ _ HH) HA HC Hg)
    as (HG & HQ & Hr & HA' & Hcr & _ & l & HT).
  exists l, (density_spec t r (pts t)). split; [by eapply gridded_get|].
  destruct (alg_keys_depth e (t_depth_key t) _ HA') as [_ K2]. destruct (depth_key_ne t) as (N1 & _).
  split; [|split].
  - rewrite (gt_std _ _ _ _ _ _ _ _ _ HT _ K2). clear HA HC Hg HT K2.
    assert (Hsimple : forall a, std_layer e t (alg_name a) r gp border (pts t) "density" = Some (density_spec t r (pts t))).
    { intros a. destruct (fresh_out_ok e t a r (pts t) (g_size _ _ HG) Hr (g_in _ _ HG)) as [o Ho].
      rewrite (simple_std _ _ _ _ _ _ _ _ _ Ho). unfold simple_layer. rewrite decide_False by done.
      rewrite decide_True by done. f_equal.
      by destruct (fresh_out_spec e t a r (pts t) o (g_size _ _ HG) Hr (g_in _ _ HG) Ho) as (_ & ? & _ & _). }
    destruct HA' as [->|[->| ->]]; [apply (Hsimple Mean)|apply (Hsimple Shoalest)|].
    destruct (cube_fresh_ok e t r gp border (pts t) (g_size _ _ HG) Hr (g_in _ _ HG)) as (qq & Hq & Hd & _); [by apply Hcr|].
    rewrite (cube_std _ _ _ _ _ _ _ _ Hq). unfold cube_layer.
    rewrite decide_False by done. rewrite decide_False by done. rewrite decide_False by done.
    rewrite decide_True by done. by rewrite Hd.
  - rewrite <- (tr_data _ _ Hrep). apply density_spec_sum; [apply HG|done|apply HG].
  - rewrite <- (tr_data _ _ Hrep). unfold t_points_count. rewrite (gt_data _ _ _ _ _ _ _ _ _ HT).
    unfold pts. by destruct (t_data t).
Qed.
Print Assumptions C20_tile_density.

(** ** C21 *)
Theorem C21_point_order e x y s b t1 ct1 f1 t2 ct2 f2 alg ro1 ro2 clear1 clear2 mode gp1 gp2 b1 b2 t1' t2' r :
  0 < s -> tile_history e x y s b t1 ct1 f1 -> tile_history e x y s b t2 ct2 f2 ->
  all_points ct1 ≡ₚ all_points ct2 -> alg = "mean" \/ alg = "shoalest" ->
  (clear1 = true \/ same_kind (t_algorithm t1) alg) -> (clear2 = true \/ same_kind (t_algorithm t2) alg) ->
  t_grid e t1 alg ro1 clear1 mode gp1 b1 = Ok (t1', r) -> t_grid e t2 alg ro2 clear2 mode gp2 b2 = Ok (t2', r) ->
  forall name, (name ∈ ["depth"; "intensity"; "density"] \/
                (alg = "mean" /\ name ∈ ["vertical_uncertainty"; "horizontal_uncertainty"])) ->
  forall a, (name = "depth" -> b = false) -> (name = "intensity" -> b = true) ->
  (name = "vertical_uncertainty" -> has_tvu (e_dt e) = true) ->
  (name = "horizontal_uncertainty" -> has_thu (e_dt e) = true) ->
  dget (layers_at t1' r) name = Some a -> dget (layers_at t2' r) name = Some a.
Proof.
  intros Hs HH1 HH2 HP HA HC1 HC2 Hg1 Hg2 name Hname aa N1 N2 N3 N4.
  destruct (history_rep _ _ _ _ _ _ _ _ Hs HH1) as [Hrep1 _]. destruct (history_rep _ _ _ _ _ _ _ _ Hs HH2) as [Hrep2 _].
  rewrite <- (tr_data _ _ Hrep1), <- (tr_data _ _ Hrep2) in HP.
  assert (exists a, alg = alg_name a) as [a ->] by (destruct HA as [->| ->]; [by exists Mean|by exists Shoalest]).
  destruct (reach_grid_simple _ _ _ _ _ _ _ a _ _ _ _ _ _ _ Hs (history_reach _ _ _ _ _ _ _ _ HH1) HC1 Hg1)
    as (HG1 & HQ1 & Hr & l1 & o1 & Hl1 & Ho1 & D1 & D2 & D3 & D4).
  destruct (reach_grid_simple _ _ _ _ _ _ _ a _ _ _ _ _ _ _ Hs (history_reach _ _ _ _ _ _ _ _ HH2) HC2 Hg2)
    as (HG2 & HQ2 & _ & l2 & o2 & Hl2 & Ho2 & E1 & E2 & E3 & E4).
  destruct (fresh_out_spec e t1 a r (pts t1) o1 (g_size _ _ HG1) Hr (g_in _ _ HG1) Ho1) as (_ & _ & S3 & S4).
  destruct (fresh_out_spec e t2 a r (pts t2) o2 (g_size _ _ HG2) Hr (g_in _ _ HG2) Ho2) as (_ & _ & T3 & T4).
  assert (Hf : same_frame t1 t2) by (by eapply at_square_same).
  rewrite (layers_at_get _ _ _ Hl1), (layers_at_get _ _ _ Hl2). intros Ha.
  assert (Hdepth : dget l1 (depth_key_of b) = Some aa -> dget l2 (depth_key_of b) = Some aa).
  { intros H. rewrite E1, <- H, D1, (depth_spec_frame t1 t2) by done. f_equal. symmetry. by apply depth_spec_perm. }
  destruct Hname as [Hname|[Halg Hname]].
  - apply elem_of_cons in Hname as [->|Hname]; [rewrite (N1 eq_refl) in Hdepth; by apply Hdepth|].
    apply elem_of_cons in Hname as [->|Hname]; [rewrite (N2 eq_refl) in Hdepth; by apply Hdepth|].
    apply elem_of_list_singleton in Hname as ->.
    rewrite E2, <- Ha, D2, (density_spec_frame t1 t2) by done. f_equal. symmetry. by apply density_spec_perm.
  - destruct a; [|done].
    apply elem_of_cons in Hname as [->|Hname]; [|apply elem_of_list_singleton in Hname as ->].
    + rewrite (E3 (N3 eq_refl)), <- Ha, (D3 (N3 eq_refl)), S3, T3 by auto.
      rewrite (depth_spec_frame t1 t2) by done. f_equal. symmetry. by apply depth_spec_perm.
    + rewrite (E4 (N4 eq_refl)), <- Ha, (D4 (N4 eq_refl)), S4, T4 by auto.
      rewrite (depth_spec_frame t1 t2) by done. f_equal. symmetry. by apply depth_spec_perm.
Qed.
(** Any two sorting permutations of the cell indices give the same arrays. *)
Theorem C21_sort_stability s1 s2 (idx : list Z) (n : nat) (z tvu thu : list Q) o1 o2 :
  sorts idx s1 -> sorts idx s2 -> Forall (fun k => 0 <= k < Z.of_nat (n * n)) idx -> (0 < n)%nat -> idx <> [] ->
  length z = length idx -> length tvu = length idx -> length thu = length idx ->
  let nan := nd_full n n (None : cell) in
  np_grid_mean_with s1 z idx nan (nd_full n n zero_cell) tvu thu nan nan = Ok o1 ->
  np_grid_mean_with s2 z idx nan (nd_full n n zero_cell) tvu thu nan nan = Ok o2 -> o1 = o2.
Proof.
  intros HS1 HS2 HF Hn Hne Hz Ht Hh nan H1 H2.
  destruct (np_grid_mean_with_spec s1 idx n n HS1 HF z nan (nd_full n n zero_cell) tvu thu nan nan)
    as (o1' & E1 & A1 & A2 & A3 & _ & A4 & _); [done|apply full_shape|apply full_shape|].
  destruct (np_grid_mean_with_spec s2 idx n n HS2 HF z nan (nd_full n n zero_cell) tvu thu nan nan)
    as (o2' & E2 & B1 & B2 & B3 & _ & B4 & _); [done|apply full_shape|apply full_shape|].
  rewrite H1 in E1. injection E1 as <-. rewrite H2 in E2. injection E2 as <-.
  assert (Hne1 : tvu <> []) by (destruct tvu, idx; done). assert (Hne2 : thu <> []) by (destruct thu, idx; done).
  destruct o1 as [a1 a2 a3 a4], o2 as [b1 b2 b3 b4]. cbn [o_depth o_density o_tvu o_thu] in *. f_equal.
  - eapply written_ext; [exact A1|exact B1|done|done].
  - eapply written_ext; [exact A2|exact B2|done|done].
  - eapply written_ext; [apply A3|apply B3|done|done]; first [done|apply full_shape|lia].
  - eapply written_ext; [apply A4|apply B4|done|done]; first [done|apply full_shape|lia].
Qed.
Print Assumptions C21_point_order.
Print Assumptions C21_sort_stability.
Example C21_case :
  exists t1 t2,
    t_grid env_s tile_s "mean" (Some 4) false "depth" None None = Ok (t1, 4) /\
    t_grid env_s (t_add_points (new_tile 0 0 8 false) [pt_d; pt_c; pt_b; pt_a] "x") "mean" (Some 4) false "depth" None None = Ok (t2, 4) /\
    layers_at t1 4 = layers_at t2 4.
Proof. do 2 eexists. split; [vm_compute; reflexivity|]. split; vm_compute; reflexivity. Qed.

(** ** C28 *)
Theorem C28_resolutions q e x y s b t alg ro clear mode gp border t' r :
  0 < s -> tile_reach q e x y s b t -> alg ∈ ["mean"; "shoalest"; "cube"] ->
  (clear = true \/ same_kind (t_algorithm t) alg) ->
  t_grid e t alg ro clear mode gp border = Ok (t', r) ->
  (forall k, k ∈ t_resolutions t' <-> k = r \/ (clear = false /\ k ∈ t_resolutions t)) /\
  (forall k, k <> r -> dget (t_cells t') k = if clear then None else dget (t_cells t) k).
Proof.
  intros Hs HR HA HC Hg.
  destruct (reach_grid _ _ _ _ _ _ _ _ _ _ _ _ _ _ _ Hs HR HA HC Hg) as (_ & _ & _ & _ & _ & _ & l & HT).
  by eapply gridded_resolutions.
Qed.
Print Assumptions C28_resolutions.
Example C28_case :
  exists t1 t2 t3,
    t_grid env_s tile_s "mean" (Some 4) false "depth" None None = Ok (t1, 4) /\
    t_grid env_s t1 "mean" (Some 2) false "depth" None None = Ok (t2, 2) /\
    t_grid env_s t2 "mean" (Some 8) true "depth" None None = Ok (t3, 8) /\
    map t_resolutions [t1; t2; t3] = [[4]; [4; 2]; [8]].
Proof. do 3 eexists. split; [vm_compute; reflexivity|]. split; [vm_compute; reflexivity|]. split; vm_compute; reflexivity. Qed.

(** ** C29 is false of the code: any other name is accepted, and the tile is then marked as gridded at
    that resolution, with no layers. *)
Theorem C29_unknown_algorithm_refuted :
  exists e t t', t_changed t = true /\
    t_grid e t "median" (Some 4) false "depth" None None = Ok (t', 4) /\
    t_changed t' = false /\ t_resolutions t' = [4] /\ dget (t_cells t') 4 = Some [].
Proof. exists env_s, tile_s. eexists. split; [reflexivity|]. split; [vm_compute; reflexivity|]. split; [|split]; reflexivity. Qed.
Print Assumptions C29_unknown_algorithm_refuted.

(** What holds: whatever happened to the tile before, a name that is not an algorithm is rejected
    exactly when the cell numbers of the soundings at that resolution are already known. Missing:
    the other case, where the call is accepted and leaves a resolution without layers. *)
Theorem C29_unknown_algorithm_partial e x y s b t ct f alg r clear mode gp border :
  0 < s -> tile_history e x y s b t ct f -> all_points ct <> [] ->
  alg ∉ ["mean"; "shoalest"; "cube"] -> is_power_of_two (metres e r) = true ->
  match dget (t_indices t) r with
  | Some _ => t_grid e t alg (Some r) clear mode gp border = Raise KeyError
  | None => exists t', t_grid e t alg (Some r) clear mode gp border = Ok (t', r) /\
      dget (t_cells t') r = Some [] /\ t_changed t' = false /\ t_data t' = t_data t /\ t_container t' = t_container t
  end.
Proof.
  intros Hs H Hne Ha Hp. destruct (reach_good _ _ _ _ _ _ _ Hs (history_reach _ _ _ _ _ _ _ _ H)) as (HG & _).
  destruct (history_rep _ _ _ _ _ _ _ _ Hs H) as [[_ R2 R3 _] _].
  destruct (t_data t) as [d|] eqn:Ed; [|by rewrite (R3 eq_refl) in Hne].
  assert (Hk : ~ known_alg alg) by (intros [->|[->| ->]]; apply Ha; by repeat constructor).
  pose proof (unknown_grid e t alg r clear mode gp border d HG Ed Hk Hp) as U.
  destruct (dget (t_indices t) r); [exact U|]. destruct U as (t' & U1 & U2 & U3 & U4 & U5 & _).
  exists t'. rewrite Ed in U4. repeat (split; [assumption|]). exact U5.
Qed.
Print Assumptions C29_unknown_algorithm_partial.
Example C29_case :
  exists t1, t_grid env_s tile_s "mean" (Some 4) false "depth" None None = Ok (t1, 4) /\
    is_Some (dget (t_indices t1) 4) /\ t_grid env_s t1 "median" (Some 4) false "depth" None None = Raise KeyError /\
    dget (t_indices t1) 2 = None.
Proof.
  eexists. split; [vm_compute; reflexivity|]. split; [eexists; reflexivity|]. split; vm_compute; reflexivity.
Qed.

(** ** C31 *)
Theorem C31_band_partial e t d m :
  t_data t = Some d -> is_mean (map pz d) m -> (m < 20480)%Q ->
  exists v, band_for m v /\ t_calculate_resolution_lookup e t = Ok (Z.min (t_size t) (v * e_tpq e)).
Proof.
  intros Hd Hm Hlt. destruct (qmean_mean (map pz d)) as (m' & Hq & Hm'); [apply Hm|].
  pose proof (is_mean_unique _ _ _ Hm Hm') as Heq.
  exists (band_lookup (Some m')). split.
  - destruct (band_lookup_for m') as (i & k & H1 & H2 & H3); [lra|].
    exists i, k. split; [done|]. split; [lra|]. intros j k' v' Hj Hl. specialize (H3 j k' v' Hj Hl). lra.
  - unfold t_calculate_resolution_lookup. by rewrite Hd, Hq.
Qed.
Theorem C31_monotone_partial e t1 t2 d1 d2 m1 m2 r1 r2 :
  0 < e_tpq e -> t_data t1 = Some d1 -> t_data t2 = Some d2 -> t_size t1 = t_size t2 ->
  is_mean (map pz d1) m1 -> is_mean (map pz d2) m2 -> (m1 <= m2)%Q -> (m2 < 20480)%Q ->
  t_calculate_resolution_lookup e t1 = Ok r1 -> t_calculate_resolution_lookup e t2 = Ok r2 -> r1 <= r2.
Proof.
  intros He Hd1 Hd2 Hs M1 M2 Hle Hlt H1 H2.
  destruct (C31_band_partial e t1 d1 m1 Hd1 M1) as (v1 & B1 & E1); [lra|].
  destruct (C31_band_partial e t2 d2 m2 Hd2 M2 Hlt) as (v2 & B2 & E2).
  pose proof (band_for_mono m1 m2 v1 v2 Hle B1 B2).
  rewrite E1 in H1. injection H1 as <-. rewrite E2 in H2. injection H2 as <-. rewrite Hs. nia.
Qed.
(** Both parts fail from 20480 m on: no band exceeds the mean depth, the finest resolution is used. *)
Theorem C31_deep_refuted :
  exists e t1 t2 m1 m2 r1 r2, 0 < e_tpq e /\ t_size t1 = t_size t2 /\
    is_mean (map pz (default [] (t_data t1))) m1 /\ is_mean (map pz (default [] (t_data t2))) m2 /\ (m1 < m2)%Q /\
    t_calculate_resolution_lookup e t1 = Ok r1 /\ t_calculate_resolution_lookup e t2 = Ok r2 /\ r2 < r1.
Proof.
  exists env_s, (t_add_points (new_tile 0 0 4096 false) [Point 0 0 5000 0 0] "a"),
    (t_add_points (new_tile 0 0 4096 false) [Point 0 0 20480 0 0] "a"), 5000%Q, 20480%Q, 1024, 1.
  split; [done|]. split; [done|]. split; [split; done|]. split; [split; done|]. split; [done|].
  split; [vm_compute; reflexivity|]. split; [vm_compute; reflexivity|done].
Qed.
Print Assumptions C31_band_partial.
Print Assumptions C31_monotone_partial.
Print Assumptions C31_deep_refuted.
Example C31_case :
  map (fun z => t_calculate_resolution_lookup env_s (t_add_points (new_tile 0 0 4096 false) [Point 0 0 z 0 0] "a"))
    [5; 10; 39; 20479]%Q = [Ok 1; Ok 2; Ok 4; Ok 4096].
Proof. vm_compute. reflexivity. Qed.

(** ** C32, one tile *)
Theorem C32_legal e t start noise r :
  t_resolution_by_density e t start noise = Ok r ->
  r <= t_size t /\ (r = t_size t \/ exists k v, (k, v) ∈ documented_bands /\ r = v * e_tpq e).
Proof.
  intros H. apply density_resolution_legal in H as [H1 [H2|H2]]; (split; [done|]); [by left|right].
  unfold rez_options in H2. apply elem_of_list_fmap in H2 as ([k v] & -> & H2). by exists k, v.
Qed.
Theorem C32_total e x y s b t ct f noise :
  0 < s -> 0 < e_tpq e -> tile_history e x y s b t ct f -> ct <> [] ->
  exists r, t_resolution_by_density e t None noise = Ok r.
Proof.
  intros Hs He HH Hct. destruct (history_rep _ _ _ _ _ _ _ _ Hs HH) as [HR _].
  destruct (t_data t) as [d|] eqn:E; [|by apply (tr_none _ _ HR) in E].
  destruct (reach_good _ _ _ _ _ _ _ Hs (history_reach _ _ _ _ _ _ _ _ HH)) as (HG & _ & _).
  by eapply density_resolution_total.
Qed.
Print Assumptions C32_legal.
Print Assumptions C32_total.
Example C32_case : t_resolution_by_density env_s tile_s None None = Ok 8.
Proof. vm_compute. reflexivity. Qed.

(** ** C33 *)
Theorem C33_terminates (assess : Z -> res (option adjustment)) (options : list Z) (start : Z) :
  density_old_loop (length options + 1) assess options start [] <> None.
Proof.
  apply old_loop_terminates; [constructor|intros z Hz; by apply elem_of_nil in Hz|apply not_elem_of_nil|cbn; lia].
Qed.
Theorem C33_tile e t start : t_resolution_by_density_old 14 e t start <> None.
Proof.
  unfold t_resolution_by_density_old. destruct start as [s|]; [destruct (bool_decide _); [|done]|];
    apply (C33_terminates (t_assess_resolution t) (rez_options e)).
Qed.
Print Assumptions C33_terminates.
Print Assumptions C33_tile.
(** The search below stops at the end of the table after 6 assessments. *)
Example C33_case : t_resolution_by_density_old 14 env_s tile_s None = Some (Ok 4096).
Proof. vm_compute. reflexivity. Qed.

(** ** C45, one tile: right after gridding, asking for a container gives the grid of its points alone *)
Theorem C45_container e x y s b t ct f alg ro clear mode gp border t1 r c d :
  0 < s -> tile_history e x y s b t ct f -> (clear = true \/ same_kind (t_algorithm t) alg) ->
  alg = "mean" \/ alg = "shoalest" ->
  t_grid e t alg ro clear mode gp border = Ok (t1, r) -> (c, d) ∈ ct -> d <> [] ->
  c ∉ float_layers ++ slope_layers ++ int_layers ->
  exists t2 a n, t_get_layers_by_name e t1 c (Some r) None false = Ok (t2, Some a) /\ cells_cover s r n /\
    layer_is n a (fun row col => (if decide (alg = "mean") then mean_cell else least_cell)
                                   (map pz (points_in_cell x y r row col d))) /\
    (forall name, name ∈ ["depth"; "intensity"; "density"] -> dget (layers_at t2 r) name = dget (layers_at t1 r) name) /\
    t_data t2 = t_data t1 /\ t_container t2 = t_container t1.
Proof.
  intros Hs HH HC HA Hg Hc Hne Hname. pose proof (history_reach _ _ _ _ _ _ _ _ HH) as HR.
  destruct (history_rep _ _ _ _ _ _ _ _ Hs HH) as [Hrep _].
  assert (exists a, alg = alg_name a) as [a ->] by (destruct HA as [->| ->]; [by exists Mean|by exists Shoalest]).
  destruct (reach_grid _ _ _ _ _ _ _ _ _ _ _ _ _ _ _ Hs HR (alg_name_elem a) HC Hg)
    as (HG & HQ & Hr & _ & _ & _ & l & HT).
  assert (Hq : is_container_query c = true).
  { unfold is_container_query. by rewrite bool_decide_eq_false_2. }
  destruct (container_query e t t1 a r clear gp border l ct c d HG Hr HT Hrep Hc Hne Hq) as (t2 & H2 & Hkeep).
  exists t2, (depth_spec t a r pz d), (ncell t r). split; [done|].
  split; [destruct HQ as (_ & _ & <- & _); apply ncell_cover; [apply HG|done]|].
  split; [|split].
  - destruct a; cbn [alg_name].
    + rewrite decide_True by done. eapply layer_impl; [apply depth_spec_mean|].
      intros row col v _ _. cbv beta. by rewrite (tile_cell_square _ _ _ _ _ _ _ _ _ HQ).
    + rewrite decide_False by done. eapply layer_impl; [apply depth_spec_least|].
      intros row col v _ _. cbv beta. by rewrite (tile_cell_square _ _ _ _ _ _ _ _ _ HQ).
  - destruct (density_suffix_ne c) as (D1 & D2 & D3). intros name Hn. apply Hkeep.
    + intros ->. apply Hname. rewrite !elem_of_cons in Hn. rewrite !elem_of_app. unfold float_layers, int_layers.
      rewrite !elem_of_cons. naive_solver.
    + rewrite !elem_of_cons in Hn. intros ->. destruct Hn as [Hn|[Hn|[Hn|Hn]]]; [done|done|done|by apply elem_of_nil in Hn].
  - destruct (good_query _ _ _ _ _ _ _ _ (gt_good _ _ _ _ _ _ _ _ _ HT) H2) as (_ & _ & H3 & H4 & _). done.
Qed.
Print Assumptions C45_container.
Example C45_case :
  exists t1 t2, t_grid env_s tile_s "mean" (Some 4) false "depth" None None = Ok (t1, 4) /\
    t_get_layers_by_name env_s t1 "two" (Some 4) None false =
      Ok (t2, Some (Nd 2 2 [Some 12; None; None; Some (2333 # 1000)]%Q)).
Proof. do 2 eexists. split; vm_compute; reflexivity. Qed.
(** Without gridding first the query fails: a container added after gridding at that resolution has the
    placeholder index -1, which numpy.unravel_index rejects. *)
Theorem C45_ungridded_refuted :
  exists t1 t2, t_grid env_s tile_s "mean" (Some 4) false "depth" None None = Ok (t1, 4) /\
    t2 = t_add_points t1 [pt_a] "three" /\
    t_get_layers_by_name env_s t2 "three" (Some 4) None false = Raise ValueError.
Proof. do 2 eexists. split; [vm_compute; reflexivity|]. split; [reflexivity|]. vm_compute; reflexivity. Qed.
Print Assumptions C45_ungridded_refuted.
(** Under CUBE a container query always raises. *)
Theorem C45_cube_refuted :
  exists t1, t_grid env_s tile_s "cube" (Some 4) false "depth" None None = Ok (t1, 4) /\
    t_get_layers_by_name env_s t1 "two" (Some 4) None false = Raise IndexError.
Proof. eexists. split; vm_compute; reflexivity. Qed.
Print Assumptions C45_cube_refuted.

(** ** C69 *)
Theorem C69_cube e x y s b t ct f ro clear mode gp border t' r :
  0 < s -> tile_history e x y s b t ct f -> (clear = true \/ same_kind (t_algorithm t) "cube") ->
  t_grid e t "cube" ro clear mode gp border = Ok (t', r) ->
  (** the engine returns arrays of the size it was asked for *)
  (forall call, Forall (fun a => nrows a = cc_numrows call /\ ncols a = cc_numcols call)
     [co_depth (e_cube e call); co_unc (e_cube e call); co_ratio (e_cube e call); co_hyp (e_cube e call)]) ->
  let data := all_points ct ++ default [] border in
  let opt (g : params -> option string) dflt := match gp with Some p => default dflt (g p) | None => dflt end in
  exists n l depth density unc hyp ratio, 0 < r /\ cells_cover s r n /\ dget (t_cells t') r = Some l /\
    let out := e_cube e (CubeCall (map pz data) (map pthu data) (map ptvu data) (map px data) (map py data)
                 n n x (y + s) (opt p_method "local") (opt p_iho "order1a") r (opt p_var "cube")) in
    dget l (if b then "intensity" else "depth") = Some depth /\ dget l "density" = Some density /\
    dget l "total_uncertainty" = Some unc /\ dget l "hypothesis_count" = Some hyp /\
    dget l "hypothesis_ratio" = Some ratio /\
    layer_is n depth (fun row col v =>
      match nd_get (co_depth out) (n - 1 - row) col with
      | Some (Some z) => exists w, is_round3 z w /\ v = Some w | _ => v = None end) /\
    layer_is n unc (fun row col v =>
      match nd_get (co_depth out) (n - 1 - row) col, nd_get (co_unc out) (n - 1 - row) col with
      | Some (Some _), Some (Some u) => exists w, is_round3 u w /\ v = Some w | _, _ => v = None end) /\
    layer_is n ratio (fun row col v =>
      match nd_get (co_depth out) (n - 1 - row) col, nd_get (co_ratio out) (n - 1 - row) col with
      | Some (Some _), Some (Some u) => exists w, is_round3 u w /\ v = Some w | _, _ => v = None end) /\
    layer_is n hyp (fun row col v =>
      match nd_get (co_depth out) (n - 1 - row) col with
      | Some (Some _) => v = default None (nd_get (co_hyp out) (n - 1 - row) col) | _ => v = Some (numQ 0) end) /\
    layer_is n density (fun row col v => v = Some (numQ (length (points_in_cell x y r row col (all_points ct))))).
Proof.
  intros Hs HH HC Hg Heng data opt. destruct (history_rep _ _ _ _ _ _ _ _ Hs HH) as [Hrep _].
  assert (HA : "cube" ∈ ["mean"; "shoalest"; "cube"]) by (rewrite !elem_of_cons; auto).
  destruct (reach_grid _ _ _ _ _ _ _ _ _ _ _ _ _ _ _ Hs (history_reach _ _ _ _ _ _ _ _ HH) HA HC Hg)
    as (HG & HQ & Hr & HA' & Hcr & _ & l & HT).
  destruct (cube_fresh_ok e t r gp border (pts t) (g_size _ _ HG) Hr (g_in _ _ HG)) as (qq & Hq & Q1 & Q2 & Q3 & Q4 & Q5); [by apply Hcr|].
  assert (Hcall : cube_args e t r gp border (pts t) (ncell t r) (ncell t r) =
    CubeCall (map pz data) (map pthu data) (map ptvu data) (map px data) (map py data)
                 (ncell t r) (ncell t r) x (y + s) (opt p_method "local") (opt p_iho "order1a") r (opt p_var "cube")).
  { unfold cube_args, t_max_y. destruct HQ as (-> & -> & -> & _). rewrite (tr_data _ _ Hrep). unfold opt. by destruct gp. }
  rewrite Hcall in Q2, Q3, Q4, Q5.
  set (call := CubeCall _ _ _ _ _ _ _ _ _ _ _ _ _) in *.
  specialize (Heng call). cbn [cc_numrows cc_numcols call] in Heng.
  inversion Heng as [|? ? [R1 C1] HE1]; subst. inversion HE1 as [|? ? [R2 C2] HE2]; subst.
  inversion HE2 as [|? ? [R3 C3] HE3]; subst. inversion HE3 as [|? ? [R4 C4] _]; subst. clear Heng HE1 HE2 HE3.
  change (cc_numrows call) with (ncell t r) in *. change (cc_numcols call) with (ncell t r) in *.
  assert (Hkb : t_depth_key t = depth_key_of b) by (unfold t_depth_key; by destruct HQ as (_ & _ & _ & ->)).
  destruct (std_layer_total e t "cube" r gp border (pts t) (g_size _ _ HG) Hr (g_in _ _ HG) HA' Hcr) as [Hkeys Hsh].
  assert (Hget : forall name a, cube_layer t qq name = Some a -> dget l name = Some a /\ shape_is a (ncell t r) (ncell t r)).
  { intros name a Ha. rewrite <- (cube_std e t r gp border (pts t) name qq Hq) in Ha. split; [|by eapply Hsh].
    rewrite <- Ha. apply HT. apply Hkeys. eauto. }
  exists (ncell t r), l, (arr_round3 (q_depth qq)), (q_density qq), (arr_round3 (q_tpu qq)), (q_hyp qq), (arr_round3 (q_ratio qq)).
  split; [done|]. split; [destruct HQ as (_ & _ & <- & _); apply ncell_cover; [apply HG|done]|].
  split; [by eapply gridded_get|]. cbv zeta. fold call.
  change (if b then "intensity" else "depth") with (depth_key_of b). rewrite <- Hkb.
  assert (Hd : t_depth_key t <> "hypothesis_ratio" /\ t_depth_key t <> "total_uncertainty" /\
               t_depth_key t <> "hypothesis_count" /\ t_depth_key t <> "density")
    by (destruct (depth_key_cases t) as [->| ->]; done).
  destruct Hd as (N1 & N2 & N3 & N4).
  destruct (Hget (t_depth_key t) (arr_round3 (q_depth qq))) as [G1 (W1 & W1' & W1'')].
  { unfold cube_layer. rewrite !decide_False by done. by rewrite decide_True. }
  destruct (Hget "density" (q_density qq)) as [G2 (W2 & W2' & W2'')]; [done|].
  destruct (Hget "total_uncertainty" (arr_round3 (q_tpu qq))) as [G3 (W3 & W3' & W3'')]; [done|].
  destruct (Hget "hypothesis_count" (q_hyp qq)) as [G4 (W4 & W4' & W4'')]; [done|].
  destruct (Hget "hypothesis_ratio" (arr_round3 (q_ratio qq))) as [G5 (W5 & W5' & W5'')]; [done|].
  split; [done|]. split; [done|]. split; [done|]. split; [done|]. split; [done|].
  assert (Hlen : forall a : arr, nd_wf a -> nrows a = ncell t r -> ncols a = ncell t r -> length (nflat a) = (ncell t r * ncell t r)%nat).
  { intros a Hw H1 H2. unfold nd_wf in Hw. congruence. }
  assert (Hmk : forall (a : arr) P, nd_wf a -> nrows a = ncell t r -> ncols a = ncell t r ->
     (forall row col, (row < ncell t r)%nat -> (col < ncell t r)%nat -> exists v, nd_get a row col = Some v /\ (P row col v : Prop)) ->
     layer_is (ncell t r) a P) by (intros; repeat split; auto).
  assert (Hr3 : forall (a : arr) i j c, nd_get a i j = Some c -> nd_get (arr_round3 a) i j = Some (option_map round3 c)).
  { intros a i j c H. unfold arr_round3. rewrite nd_get_map, H. done. }
  split; [|split; [|split; [|split]]].
  - apply Hmk; try done. intros row col Hrow Hcol. eexists. split.
    + apply Hr3. rewrite Q2. by apply place_valid_cell.
    + destruct (nd_get (co_depth (e_cube e call)) _ col) as [[z|]|]; cbn; try done. exists (round3 z). split; [apply round3_spec|done].
  - apply Hmk; try done. intros row col Hrow Hcol. eexists. split.
    + apply Hr3. rewrite Q3. by apply place_valid_cell.
    + destruct (nd_get (co_depth (e_cube e call)) _ col) as [[z|]|]; cbn; try done.
      destruct (nd_get (co_unc (e_cube e call)) _ col) as [[u|]|]; cbn; try done. exists (round3 u). split; [apply round3_spec|done].
  - apply Hmk; try done. intros row col Hrow Hcol. eexists. split.
    + apply Hr3. rewrite Q5. by apply place_valid_cell.
    + destruct (nd_get (co_depth (e_cube e call)) _ col) as [[z|]|]; cbn; try done.
      destruct (nd_get (co_ratio (e_cube e call)) _ col) as [[u|]|]; cbn; try done. exists (round3 u). split; [apply round3_spec|done].
  - apply Hmk; try done. intros row col Hrow Hcol. eexists. split.
    + rewrite Q4. by apply place_valid_cell.
    + by destruct (nd_get (co_depth (e_cube e call)) _ col) as [[z|]|].
  - rewrite Q1. eapply layer_impl; [apply density_spec_layer|]. intros row col v _ _.
    cbv beta. by rewrite (tile_cell_square _ _ _ _ _ _ _ _ _ HQ), (tr_data _ _ Hrep).
Qed.
Print Assumptions C69_cube.
(** Engine row 1 (the lower one) is grid row 0; engine row 0 is undefined. *)
Example C69_case :
  exists t', t_grid env_s tile_s "cube" (Some 4) false "depth" None (Some [Point 9 1 3 1 1]) = Ok (t', 4) /\
    option_map nflat (dget (layers_at t' 4) "depth") = Some [Some 10; Some 11; None; None]%Q /\
    option_map nflat (dget (layers_at t' 4) "density") = Some [Some 2; Some 1; Some 0; Some 1]%Q.
Proof. eexists. split; [vm_compute; reflexivity|]. split; vm_compute; reflexivity. Qed.

(** ** C71, one tile *)
Theorem C71_tile e x y s b t ct f : 0 < s -> tile_history e x y s b t ct f -> t_changed t = f.
Proof. intros Hs HH. by destruct (history_rep _ _ _ _ _ _ _ _ Hs HH). Qed.
Print Assumptions C71_tile.

(** ** C72 *)
Theorem C72_slopes e (d : list point) (x y r : Z) (n : nat) (idx : list Z) (order : list nat) :
  0 < r -> (0 < n)%nat -> Forall (fun p => in_square x y (Z.of_nat n * r) (px p) (py p)) d ->
  bin2d_with_indices (map xy_of d) (even_edges x r n) (even_edges y r n) = Ok idx -> sorts idx order ->
  exists sx sy,
    calculate_slopes_with e order (map (fun p => (px p, py p, pz p)) d) idx n n = Ok (sx, sy) /\
    layer_is n sx (fun row col v =>
      let l := points_in_cell x y r row col d in
      (l = [] /\ v = None) \/ (l <> [] /\ exists l', l' ≡ₚ map (fun p => (px p, py p, pz p)) l /\ v = Some (e_lstsq e l').1)) /\
    layer_is n sy (fun row col v =>
      let l := points_in_cell x y r row col d in
      (l = [] /\ v = None) \/ (l <> [] /\ exists l', l' ≡ₚ map (fun p => (px p, py p, pz p)) l /\ v = Some (e_lstsq e l').2)).
Proof.
  intros Hr Hn HF Hidx HS. set (t := new_tile x y (Z.of_nat n * r) false).
  assert (Hs : 0 < t_size t) by (cbn; nia).
  assert (Hnc : ncell t r = n).
  { unfold ncell. cbn. rewrite ceil_div_mult by done. lia. }
  assert (HF' : Forall (in_tile t) d) by exact HF.
  assert (Hi : idx = map (cellno t r) d).
  { pose proof (bin2d_tile t r d Hs Hr HF') as H. rewrite Hnc in H. unfold tile_edges in H.
    change (bin2d_with_indices (map xy_of d) (uniform x r (S n)) (uniform y r (S n)) = Ok idx) in Hidx.
    change (t_min_x t) with x in H. change (t_min_y t) with y in H. rewrite H in Hidx. by injection Hidx. }
  subst idx. destruct (slopes_spec order e t r d Hs Hr HF' HS) as (sx & sy & H & X & Y & Hc).
  rewrite Hnc in *. exists sx, sy. split; [done|].
  destruct X as (X1 & X2 & X3), Y as (Y1 & Y2 & Y3). unfold nd_wf in X1, Y1.
  split; repeat split; try congruence; intros row col Hrow Hcol;
    destruct (Hc row col Hrow Hcol) as [(E1 & E2 & E3)|(E1 & l' & E2 & E3 & E4)];
    eexists; (split; [eassumption|]); [left|right|left|right]; (split; [exact E1|]); try done; exists l'; done.
Qed.
Print Assumptions C72_slopes.
Example C72_case :
  calculate_slopes env_s (map (fun p => (px p, py p, pz p)) [pt_a; pt_b; pt_c; pt_d]) [0; 1; 0; 3] [0; 4; 8] [0; 4; 8] =
  Ok (Nd 2 2 [Some 2; Some 1; None; Some 1]%Q, Nd 2 2 [Some 0; Some 0; None; Some 0]%Q).
Proof. vm_compute. reflexivity. Qed.
