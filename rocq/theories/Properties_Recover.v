(** Properties C95 and C96: gridding after failed calls. *)
From Coq Require Import Lqa.
From Verif Require Import Py Nd Numpy Point Bin Algorithms Tile Time Meta Disk Grid GridRun GridQuery GridOps Export
  Spec TileExec GridExec WholeSpec Samples GridSamples TileGridFacts TileRunFacts GridBaseFacts GridEvolveFacts GridSrFacts GridUpdateFacts GridFlagFacts GridLayerFacts GridAnswerFacts GridWholeFacts GridRecoverFacts Properties_GridState.
Open Scope Z_scope.

(** ** C95 *)
(** After any calls whatsoever, including calls of grid() that raised or named an unknown algorithm: gridding
    with clear_existing at a legal resolution returns normally, and every layer then is the statistic of the soundings held. *)
Theorem C95_sr e alg r size b zarr disk g ct seen ok a dask :
  alg = "mean" \/ alg = "shoalest" -> 0 < size -> is_power_of_two (metres e r) = true -> 0 < r -> size mod r = 0 ->
  sr_history e size b zarr disk g ct seen ok -> ct <> [] -> ga_alg a = alg -> ga_rez a = Some r -> ga_clear a = true ->
  let g' := st_of (g_grid sr_ops e g a dask) in
  exn_of (g_grid sr_ops e g a dask) = None /\
  answers_by sr_ops e g' (if b then "intensity" else "depth") r (m_positive_up (g_meta g')) (all_points ct) (depth_by alg) /\
  forall up, answers_by sr_ops e g' "density" r up (all_points ct) (fun d v => v = Some (numQ (length d))) /\
    (alg = "mean" -> has_tvu (e_dt e) = true -> answers_by sr_ops e g' "vertical_uncertainty" r up (all_points ct) (fun d => mean_cell (map ptvu d))) /\
    (alg = "mean" -> has_thu (e_dt e) = true -> answers_by sr_ops e g' "horizontal_uncertainty" r up (all_points ct) (fun d => mean_cell (map pthu d))).
Proof.
  intros Halg Hs Hp Hr Hm H Hne Ha Hz Hc g'. destruct (simple_cases _ Halg) as [sa ->].
  destruct (sr_recovers e sa r size b zarr disk g ct seen ok a dask Hs Hp H Hne (conj Ha (conj Hz Hc))) as (Hx & HR & lx & ly & nx & ny & HF).
  split; [exact Hx|]. destruct (frame_answers e (alg_name sa) r size b g' ct lx ly nx ny Halg Hs HF HR Hr Hm) as [D1 D2]. split; [|exact D2].
  destruct (D1 (m_positive_up (g_meta g'))) as [E1 E2]; [left; unfold eff_up; by destruct (m_positive_up (g_meta g'))|].
  unfold depth_by. by destruct sa; [apply E1|apply E2].
Qed.
Theorem C95_vr e alg r size sub b zarr disk g ct seen ok a dask :
  alg = "mean" \/ alg = "shoalest" -> 0 < size -> 0 < sub -> is_power_of_two (metres e r) = true -> 0 < r -> size mod sub = 0 -> sub mod r = 0 ->
  vr_history e size sub b zarr disk g ct seen ok -> ct <> [] -> ga_alg a = alg -> ga_rez a = Some r -> ga_clear a = true ->
  let g' := st_of (g_grid vr_ops e g a dask) in
  exn_of (g_grid vr_ops e g a dask) = None /\
  answers_by vr_ops e g' "depth" r (m_positive_up (g_meta g')) (all_points ct) (depth_by alg) /\
  forall up, answers_by vr_ops e g' "density" r up (all_points ct) (fun d v => v = Some (numQ (length d))) /\
    (alg = "mean" -> has_tvu (e_dt e) = true -> answers_by vr_ops e g' "vertical_uncertainty" r up (all_points ct) (fun d => mean_cell (map ptvu d))) /\
    (alg = "mean" -> has_thu (e_dt e) = true -> answers_by vr_ops e g' "horizontal_uncertainty" r up (all_points ct) (fun d => mean_cell (map pthu d))).
Proof.
  intros Halg Hs Hsub Hp Hr Hm1 Hm2 H Hne Ha Hz Hc g'. destruct (simple_cases _ Halg) as [sa ->].
  destruct (vr_recovers e sa r size sub b zarr disk g ct seen ok a dask Hs Hsub Hp H Hne (conj Ha (conj Hz Hc))) as (Hx & HR).
  split; [exact Hx|].
  destruct (vr_history_frame e size sub b zarr disk g' ct seen ok Hs Hsub Hm1 (GH_grid vr_ops e _ g ct seen ok a dask H) Hne) as (lx & ly & nx & ny & HF & HS & HC).
  destruct (vr_frame_answers e (alg_name sa) r size sub g' ct lx ly nx ny Halg Hs Hsub HF HS HC HR Hr Hm1 Hm2) as [D1 D2]. split; [|exact D2].
  destruct (D1 (m_positive_up (g_meta g'))) as [E1 E2]; [unfold eff_up; by destruct (m_positive_up (g_meta g'))|].
  unfold depth_by. by destruct sa; [apply E1|apply E2].
Qed.
(** The tiles, at any legal resolution, whether or not it divides the tile size. *)
Theorem C95_sr_tiles e alg r size b zarr disk g ct seen ok a dask :
  alg = "mean" \/ alg = "shoalest" -> 0 < size -> is_power_of_two (metres e r) = true ->
  sr_history e size b zarr disk g ct seen ok -> ct <> [] -> ga_alg a = alg -> ga_rez a = Some r -> ga_clear a = true ->
  exn_of (g_grid sr_ops e g a dask) = None /\ sr_reflects e alg r size b ct (st_of (g_grid sr_ops e g a dask)).
Proof.
  intros Halg Hs Hp H Hne Ha Hz Hc. destruct (simple_cases _ Halg) as [sa ->].
  by destruct (sr_recovers e sa r size b zarr disk g ct seen ok a dask Hs Hp H Hne (conj Ha (conj Hz Hc))) as (Hx & HR & _).
Qed.
Theorem C95_vr_tiles e alg r size sub b zarr disk g ct seen ok a dask :
  alg = "mean" \/ alg = "shoalest" -> 0 < size -> 0 < sub -> is_power_of_two (metres e r) = true ->
  vr_history e size sub b zarr disk g ct seen ok -> ct <> [] -> ga_alg a = alg -> ga_rez a = Some r -> ga_clear a = true ->
  exn_of (g_grid vr_ops e g a dask) = None /\ vr_reflects e alg r size sub ct (st_of (g_grid vr_ops e g a dask)).
Proof.
  intros Halg Hs Hsub Hp H Hne Ha Hz Hc. destruct (simple_cases _ Halg) as [sa ->].
  exact (vr_recovers e sa r size sub b zarr disk g ct seen ok a dask Hs Hsub Hp H Hne (conj Ha (conj Hz Hc))).
Qed.
Print Assumptions C95_sr.
Print Assumptions C95_vr.
Print Assumptions C95_sr_tiles.
Print Assumptions C95_vr_tiles.
(** Soundings without uncertainties: 'cube' raises after the layers have been replaced, then 'median' raises after they have been removed. *)
Definition cube_clear := grid_args "cube" 4 true "full".
Definition median_clear := grid_args "median" 4 true "full".
Definition mean_clear := grid_args "mean" 4 true "full".
Definition hurt_0 := sr_run env_plain sr_2 mean_4.
Definition hurt_1 := st_of (g_grid sr_ops env_plain hurt_0 cube_clear None).
Definition hurt_2 := st_of (g_grid sr_ops env_plain hurt_1 median_clear None).
Definition depth_of (e : env) (g : sr_grid) : option (list cell) :=
  match g_get_layers_by_name sr_ops e g ["depth"] (Some 4) None false with Ok (_, Some [a]) => Some (nflat a) | _ => None end.
Lemma sr_2_any e : exists seen ok, sr_history e 8 false false true sr_2 ct_2 seen ok.
Proof.
  exists ([] ++ pts_one ++ pts_two), true. apply (GH_add sr_ops e _ sr_1 [("one", pts_one)] ([] ++ pts_one) true pts_two (args_of "two")); [|vm_compute; reflexivity].
  apply (GH_add sr_ops e _ (create_sr 8 false false true) [] [] true pts_one (args_of "one")); [|vm_compute; reflexivity]. apply GH_new.
Qed.
Lemma hurt_2_history : exists seen ok, sr_history env_plain 8 false false true hurt_2 ct_2 seen ok.
Proof.
  destruct (sr_2_any env_plain) as (seen & ok & H). exists seen, ok. apply (GH_grid sr_ops env_plain _ hurt_1 ct_2 seen ok median_clear None).
  apply (GH_grid sr_ops env_plain _ hurt_0 ct_2 seen ok cube_clear None). by apply (GH_grid sr_ops env_plain _ sr_2 ct_2 seen ok mean_4 None).
Qed.
Example C95_case : (exists seen ok, sr_history env_plain 8 false false true hurt_2 ct_2 seen ok) /\
  exn_of (g_grid sr_ops env_plain hurt_0 cube_clear None) = Some ValueError /\ exn_of (g_grid sr_ops env_plain hurt_1 median_clear None) = Some KeyError /\
  depth_of env_plain hurt_2 <> depth_of env_plain hurt_0 /\
  exn_of (g_grid sr_ops env_plain hurt_2 mean_clear None) = None /\
  depth_of env_plain (st_of (g_grid sr_ops env_plain hurt_2 mean_clear None)) = depth_of env_plain hurt_0.
Proof.
  split; [apply hurt_2_history|]. split; [vm_compute; reflexivity|]. split; [vm_compute; reflexivity|].
  split; [vm_compute; discriminate|]. split; vm_compute; reflexivity.
Qed.

(** ** C96 *)
(** A call of grid() that raises: the layers of the tiles may be gone, and the algorithm it named is recorded, so that a
    call with the algorithm used before raises too. *)
Theorem C96_failed_grid_refuted : exists e size zarr disk (g : sr_grid) ct seen ok a again,
  sr_history e size false zarr disk g ct seen ok /\ exn_of (g_grid sr_ops e g a None) <> None /\
  let g' := st_of (g_grid sr_ops e g a None) in
  depth_of e g <> None /\ depth_of e g' <> depth_of e g /\
  exn_of (g_grid sr_ops e g again None) = None /\ exn_of (g_grid sr_ops e g' again None) = Some ValueError.
Proof.
  destruct (sr_2_any env_plain) as (seen & ok & H). exists env_plain, 8, false, true, hurt_0, ct_2, seen, ok, cube_clear, mean_4.
  split; [by apply (GH_grid sr_ops env_plain _ sr_2 ct_2 seen ok mean_4 None)|]. split; [vm_compute; discriminate|]. cbv zeta.
  split; [vm_compute; discriminate|]. split; [vm_compute; discriminate|]. split; vm_compute; reflexivity.
Qed.
Print Assumptions C96_failed_grid_refuted.
(** What no call of grid() changes, whether it raises or not, in any state: the square of each tile, the soundings and containers of
    each tile; the containers, extents, coordinate system, times and all other attributes but the four that describe gridding. *)
Definition same_soundings (t t' : tile) : Prop :=
  t_data t' = t_data t /\ t_container t' = t_container t /\
  (t_min_x t', t_min_y t', t_size t', t_backscatter t') = (t_min_x t, t_min_y t, t_size t, t_backscatter t).
Definition same_but_gridding {T} (R : T -> T -> Prop) (g g' : grid T) : Prop :=
  g_geom g' = g_geom g /\ g_mask g' = g_mask g /\ g_disk g' = g_disk g /\
  (exists rz alg gr pr, g_meta g' = g_meta g <| m_rezs := rz |> <| m_algorithm := alg |> <| m_grez := gr |> <| m_params := pr |>) /\
  forall k, match tile_at g k, tile_at g' k with Some t, Some t' => R t t' | None, None => True | _, _ => False end.
Lemma evolve_same {T} (R R' : T -> T -> Prop) (g g' : grid T) : (forall t t', R t t' -> R' t t') -> evolve R g g' -> same_but_gridding R' g g'.
Proof.
  intros HR [E1 E2 E3 E4 E5]. do 4 (split; [done|]). intros k. unfold tile_at. destruct (g_tiles g) as [x|], (g_tiles g') as [y|]; try done.
  destruct E5 as (_ & _ & HF). pose proof (Forall2_length _ _ _ HF) as Hl. destruct (nflat x !! k) as [o|] eqn:Ex.
  - destruct (Forall2_lookup_l _ _ _ _ _ HF Ex) as (o' & -> & Ho). destruct o, o'; cbn in *; try done. by apply HR.
  - apply lookup_ge_None in Ex. rewrite (lookup_ge_None_2 (nflat y)) by lia. done.
Qed.
Lemma keeps_soundings t t' : tile_keeps t t' -> same_soundings t t'.
Proof. intros ((F1 & F2 & F3 & F4) & D & C). split; [done|]. split; [done|]. congruence. Qed.
Theorem C96_sr_partial e (g : sr_grid) a dask : same_but_gridding same_soundings g (st_of (g_grid sr_ops e g a dask)).
Proof.
  eapply evolve_same; [apply keeps_soundings|].
  apply evolve_grid; [apply tile_keeps_refl|apply tile_keeps_trans|apply sr_grid_keeps|apply sr_reload_keeps].
Qed.
Theorem C96_vr_partial e (g : vr_grid) a dask : same_but_gridding (same_but_gridding same_soundings) g (st_of (g_grid vr_ops e g a dask)).
Proof.
  apply (evolve_same sub_keeps); [intros sg sg'; apply evolve_same, keeps_soundings|].
  apply evolve_grid; [apply sub_keeps_refl|apply sub_keeps_trans|apply vr_grid_keeps|intros; apply sub_keeps_refl].
Qed.
(** A call refused for its algorithm changes nothing at all, and writes nothing. *)
Theorem C96_refused_partial {T} (O : tile_ops T) e (g : grid T) a dask :
  m_algorithm (g_meta g) <> "" -> m_algorithm (g_meta g) <> ga_alg a -> ga_clear a = false ->
  g_grid O e g a dask = Out g [] (Some ValueError).
Proof. apply C27_algorithm. Qed.
Print Assumptions C96_sr_partial.
Print Assumptions C96_vr_partial.
Print Assumptions C96_refused_partial.
Example C96_case : exn_of (g_grid sr_ops env_plain hurt_0 cube_clear None) = Some ValueError /\ option_map t_data (tile_at hurt_1 0) = option_map t_data (tile_at hurt_0 0) /\ g_points_count sr_ops hurt_1 = 5%nat.
Proof. split; [|split]; vm_compute; reflexivity. Qed.
