(** Properties of grid() of a whole grid with an unknown algorithm: C29. *)
From Coq Require Import Lqa.
From Verif Require Import Py Nd Numpy Point Bin Algorithms Tile TileFail Time Meta Disk Grid GridRun GridQuery GridOps Spec TileExec GridExec Samples GridSamples PyFacts NdFacts
  TileGridFacts GridSrFacts GridRunFacts GridCleanFacts GridUnknownFacts.
Open Scope Z_scope.

(** ** C29 *)
(** What a call with an unknown algorithm does to a single resolution grid that was so far gridded with known algorithms and at other
    resolutions than [r], if at all: it returns normally, whatever the name, and with any number of workers. Every tile is then marked as
    gridded but has no layer at [r], and grid() with another algorithm, in particular a known one, fails until clear_existing is set.
    Missing: resolutions that were gridded before, where the call fails with KeyError (C29_unknown_algorithm_partial). *)
Theorem C29_sr_accepted_partial e size b zarr disk g ct a dask r :
  0 < size ->
  sr_clean e (fun a' => known_args a' /\ exists r', ga_rez a' = Some r' /\ r' <> r) size b zarr disk g ct -> ct <> [] ->
  ga_alg a ∉ ["mean"; "shoalest"; "cube"] -> ga_alg a <> "" -> ga_rez a = Some r -> is_power_of_two (metres e r) = true ->
  ga_clear a = true \/ m_algorithm (g_meta g) = "" -> (ga_regrid a = "update" -> ga_clear a = true) ->
  let g' := st_of (g_grid sr_ops e g a dask) in
  exn_of (g_grid sr_ops e g a dask) = None /\
  (forall k t, tile_at g' k = Some t -> (forall name, layer_of t r name = None) /\ t_changed t = false) /\
  (forall a' dask', ga_alg a' <> ga_alg a -> ga_clear a' = false -> g_grid sr_ops e g' a' dask' = Out g' [] (Some ValueError)).
Proof.
  intros Hs H Hne HA He Hr Hp HM Hf g'.
  assert (Hk : ~ known_alg (ga_alg a)) by (intros [E|[E|E]]; apply HA; rewrite E; repeat constructor).
  destruct (sr_unknown e size b zarr disk g ct a dask r Hs H Hne Hk Hr Hp HM Hf) as [Hx HH]. split; [done|]. split; [exact HH|].
  destruct (sr_clean_inv e (not_at r) (other_rez r) size b zarr disk Hs (other_allows r) g ct H) as (_ & seen & ok & HI).
  assert (Ho : origins sr_ops g) by (by eapply root_origins).
  intros a' dask' Ha Hc. pose proof (finished_alg _ _ _ _ _ _ (sr_finished e g a dask Ho Hx)) as E. fold g' in E. apply refused; congruence.
Qed.
Print Assumptions C29_sr_accepted_partial.

(** The same for variable resolution grids. *)
Theorem C29_vr_accepted_partial e size sub b zarr disk g ct a dask r :
  0 < size -> 0 < sub ->
  vr_clean e (fun a' => known_args a' /\ exists r', ga_rez a' = Some r' /\ r' <> r) size sub b zarr disk g ct -> ct <> [] ->
  ga_alg a ∉ ["mean"; "shoalest"; "cube"] -> ga_alg a <> "" -> ga_rez a = Some r -> is_power_of_two (metres e r) = true ->
  ga_clear a = true \/ m_algorithm (g_meta g) = "" -> (ga_regrid a = "update" -> ga_clear a = true) ->
  let g' := st_of (g_grid vr_ops e g a dask) in
  exn_of (g_grid vr_ops e g a dask) = None /\
  (forall k sg j t, tile_at g' k = Some sg -> tile_at sg j = Some t -> (forall name, layer_of t r name = None) /\ t_changed t = false) /\
  (forall a' dask', ga_alg a' <> ga_alg a -> ga_clear a' = false -> g_grid vr_ops e g' a' dask' = Out g' [] (Some ValueError)).
Proof.
  intros Hs Hsub H Hne HA He Hr Hp HM Hf g'.
  assert (Hk : ~ known_alg (ga_alg a)) by (intros [E|[E|E]]; apply HA; rewrite E; repeat constructor).
  destruct (vr_unknown e size sub b zarr disk g ct a dask r Hs Hsub H Hne Hk Hr Hp HM Hf) as [Hx HH]. split; [done|]. split; [exact HH|].
  intros a' dask' Ha Hc. pose proof (finished_alg _ _ _ _ _ _ (vr_finished e g a dask (vr_origins g) Hx)) as E. fold g' in E. apply refused; congruence.
Qed.
Print Assumptions C29_vr_accepted_partial.

(** Where the claim holds: once a grid has been gridded, an unknown algorithm is rejected unless clear_existing is set, and the grid and its
    files stay as they are. *)
Theorem C29_refused_partial e size b zarr disk g ct a0 dask0 a dask :
  0 < size -> sr_clean e known_args size b zarr disk g ct -> known_args a0 -> exn_of (g_grid sr_ops e g a0 dask0) = None ->
  ga_alg a ∉ ["mean"; "shoalest"; "cube"] -> ga_clear a = false ->
  let g' := st_of (g_grid sr_ops e g a0 dask0) in g_grid sr_ops e g' a dask = Out g' [] (Some ValueError).
Proof.
  intros Hs H Ha0 Hx HA Hc g'.
  destruct (sr_clean_inv e (fun _ _ => True) known_args size b zarr disk Hs GridUpdateFacts.known_allows g ct H) as (_ & seen & ok & HI).
  assert (Ho : origins sr_ops g) by (by eapply root_origins).
  pose proof (finished_alg _ _ _ _ _ _ (sr_finished e g a0 dask0 Ho Hx)) as E. fold g' in E.
  apply refused; [|intros E2|done]; rewrite E in *; unfold known_args in Ha0.
  - intros E2. rewrite E2 in Ha0. repeat (apply elem_of_cons in Ha0 as [Ha0|Ha0]; [done|]). by apply not_elem_of_nil in Ha0.
  - congruence.
Qed.
Print Assumptions C29_refused_partial.
Theorem C29_vr_refused_partial e size sub b zarr disk g ct a0 dask0 a dask :
  0 < size -> 0 < sub -> vr_clean e known_args size sub b zarr disk g ct -> known_args a0 -> exn_of (g_grid vr_ops e g a0 dask0) = None ->
  ga_alg a ∉ ["mean"; "shoalest"; "cube"] -> ga_clear a = false ->
  let g' := st_of (g_grid vr_ops e g a0 dask0) in g_grid vr_ops e g' a dask = Out g' [] (Some ValueError).
Proof.
  intros Hs Hsub H Ha0 Hx HA Hc g'.
  pose proof (finished_alg _ _ _ _ _ _ (vr_finished e g a0 dask0 (vr_origins g) Hx)) as E. fold g' in E.
  apply refused; [|intros E2|done]; rewrite E in *; unfold known_args in Ha0.
  - intros E2. rewrite E2 in Ha0. repeat (apply elem_of_cons in Ha0 as [Ha0|Ha0]; [done|]). by apply not_elem_of_nil in Ha0.
  - congruence.
Qed.
Print Assumptions C29_vr_refused_partial.

(** Gridding the sample grids with the name "median" leaves no depth, and mean gridding then fails. *)
Definition median_run := g_grid sr_ops env_s sr_2 (grid_args "median" 4 false "full") None.
Definition vr_median_run := g_grid vr_ops env_s vr_2 (grid_args "median" 4 false "full") None.
Example C29_grid_case :
  (exn_of median_run, length (live_tiles (st_of median_run)), map (fun t => layer_of t 4 "depth") (live_tiles (st_of median_run)),
   m_rezs (g_meta (st_of median_run)), exn_of (g_grid sr_ops env_s (st_of median_run) (grid_args "mean" 4 false "full") None)) =
  (None, 3%nat, [None; None; None], [4], Some ValueError) /\
  (exn_of vr_median_run, exn_of (g_grid vr_ops env_s (st_of vr_median_run) (grid_args "mean" 4 false "full") None)) = (None, Some ValueError) /\
  exn_of (g_grid sr_ops env_s run_2 (grid_args "median" 4 false "full") None) = Some ValueError.
Proof. split; [vm_compute; reflexivity|]. split; vm_compute; reflexivity. Qed.
