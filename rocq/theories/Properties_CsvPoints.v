(** Property C124: what a csv file says of the soundings. *)
From Coq Require Import Lqa.
From Verif Require Import Py Nd Numpy Point Bin Algorithms Tile Time Meta Disk Grid GridRun GridQuery GridOps Export
  Spec TileExec GridExec WholeSpec SameSpec CsvSpec CsvPointSpec Samples GridSamples PyFacts TileFacts TileHistFacts GridInvFacts GridPropFacts GridRunFacts GridCountFacts GridExportFacts GridRootFacts GridSrFacts GridHistFacts GridCleanFacts GridUpdateFacts GridFlagFacts GridReadFacts GridAnswerFacts GridMultiFacts GridMultiVrFacts GridCsvFacts GridWholeFacts GridContainerFacts GridSameFacts
  CsvLineFacts CsvPointFacts Properties_Grid Properties_Whole Properties_Same.
Open Scope Z_scope.

Lemma gridded_sized e alg r ct T (O : tile_ops T) g : alg = "mean" \/ alg = "shoalest" -> ct <> [] -> gridded e alg r ct T O g ->
  exists x, m_ext (g_meta g) = Some x /\ m_width (g_meta g) = Some (x1 x - x0 x) /\ m_height (g_meta g) = Some (y1 x - y0 x).
Proof.
  intros Halg Hne [size zarr disk g0 a dask g' Hs Hm H Ha Hu Hx Hq|size sub zarr disk g0 a dask g' Hs Hsub Hm1 Hm2 H Ha Hu Hx Hq]; destruct (simple_cases _ Halg) as [sa ->].
  - destruct (sr_after e sa r a dask ct Ha Hu size false zarr disk g0 g' Hs H Hx Hq) as [HC _].
    destruct (clean_history_of _ _ _ _ _ _ HC) as (seen & ok & Hh). exact (root_sized _ _ _ _ _ _ (sr_inv e size false zarr disk Hs _ _ _ _ Hh) Hne).
  - destruct (vr_after e sa r a dask ct Ha Hu size sub false zarr disk g0 g' Hs Hsub H Hx Hq) as [HC _].
    destruct (clean_history_of _ _ _ _ _ _ HC) as (seen & ok & Hh). exact (root_sized _ _ _ _ _ _ (vr_inv e size sub false zarr disk Hs Hsub _ _ _ _ Hh) Hne).
Qed.

(** What is needed of the layers of a gridded grid to export them. *)
Lemma gridded_layers e alg r ct T (O : tile_ops T) g ls : alg = "mean" \/ alg = "shoalest" -> 0 < r -> ct <> [] -> gridded e alg r ct T O g ->
  g_return_layer_names O g = Ok ls -> ls <> [] -> NoDup ls -> Forall (kept_layer e alg) ls ->
  (exists o, g_get_layers_by_name O e g ls (Some r) None false = Ok (g, o) /\
    match o with
    | Some arrs => Forall2 (fun l a => g_get_layers_by_name O e g [l] (Some r) None false = Ok (g, Some [a])) ls arrs
    | None => Forall (fun l => g_get_layers_by_name O e g [l] (Some r) None false = Ok (g, None)) ls
    end) /\
  (forall l a, kept_layer e alg l -> g_get_layers_by_name O e g [l] (Some r) None (m_positive_up (g_meta g)) = Ok (g, Some [a]) ->
    exists o', g_get_layers_by_name O e g [l] (Some r) None false = Ok (g, o') /\ same_answers (shown (m_positive_up (g_meta g)) l) (Some [a]) o').
Proof.
  intros Halg Hr Hne G Hls Hl0 Hnd Hk.
  assert (Hstd : Forall (fun l => l ∈ std_layers) ls) by (eapply Forall_impl; [exact Hk|intros l; apply kept_std]).
  assert (Hk0 : exists l0, kept_layer e alg l0) by (exists "depth"; by left). destruct Hk0 as [l0 Hk0].
  destruct G as [size zarr disk g0 a dask g' Hs Hm H Ha Hu Hx Hq|size sub zarr disk g0 a dask g' Hs Hsub Hm1 Hm2 H Ha Hu Hx Hq].
  - assert (HC : sr_clean e known_args size false zarr disk g' ct /\ sr_reflects e alg r size false ct g').
    { destruct (simple_cases _ Halg) as [sa ->]. destruct (sr_after e sa r a dask ct Ha Hu size false zarr disk g0 g' Hs H Hx Hq) as [HC HN]. split; [done|].
      by apply (sr_reflects_current e known_args (fun _ h => h) sa r size false zarr disk Hs g' ct HC). }
    destruct HC as [HC HR]. pose proof (fun k t l => sr_filled e alg r size zarr disk g' ct k t l Halg Hs HC Hne Hr Hm HR) as HL.
    destruct (first_names g' ls r Hls) as [_ Hng]; [done| |].
    { intros k t Ht. destruct (HL k t l0 Ht Hk0) as (a0 & _ & Ha0 & _). unfold layer_of in Ha0. apply dget_is_Some. by destruct (dget (t_cells t) r). }
    split.
    + apply (sr_multi e known_args size false zarr disk g' ct r ls None false Hs (fun _ h => h) HC Hne Hr Hm Hng); try done.
      intros k t d l Ht Hd Hl. rewrite Forall_forall in Hk. destruct (HL k t l Ht (Hk l Hl)) as (a0 & q0 & Ha0 & Hq0). unfold layer_of in Ha0. rewrite Hd in Ha0. eauto.
    + intros l arr Hl Hqa. destruct (sr_sim e known_args size false zarr disk g' ct l r None None (m_positive_up (g_meta g')) false (shown (m_positive_up (g_meta g')) l) g' (Some [arr]) Hs (fun _ h => h) HC) as (_ & o' & Hq' & Hsame); [by eapply kept_std| | |exact Hqa|by exists o'].
      * unfold shown. case_bool_decide; [subst l|done]. done.
      * intros v. replace (eff_up (g_meta g') false) with (xorb (eff_up (g_meta g') (m_positive_up (g_meta g'))) (m_positive_up (g_meta g'))) by (unfold eff_up; by destruct (m_positive_up (g_meta g'))). apply view_shown. by right.
  - assert (HC : vr_clean e known_args size sub false zarr disk g' ct /\ vr_reflects e alg r size sub ct g').
    { destruct (simple_cases _ Halg) as [sa ->]. destruct (vr_after e sa r a dask ct Ha Hu size sub false zarr disk g0 g' Hs Hsub H Hx Hq) as [HC HN]. split; [done|].
      apply (vr_reflects_current e known_args (fun _ h => h) sa r size sub false zarr disk Hs Hsub g' ct HC). intros k sg j t Hkg Hj. exact (HN k sg Hkg j t Hj). }
    destruct HC as [HC HR]. pose proof (fun k sg j t l => vr_filled e alg r size sub zarr disk g' ct k sg j t l Halg Hs Hsub HC Hne Hr Hm1 Hm2 HR) as HL.
    destruct (vr_first_names e known_args size sub false zarr disk g' ct ls r Hs Hsub (fun _ h => h) HC Hls Hl0) as (_ & Hng & Hngs).
    { intros k sg j t Hkg Ht. destruct (HL k sg j t l0 Hkg Ht Hk0) as (a0 & _ & Ha0 & _). unfold layer_of in Ha0. apply dget_is_Some. by destruct (dget (t_cells t) r). }
    split.
    + apply (vr_multi e known_args size sub false zarr disk g' ct r ls None false Hs Hsub (fun _ h => h) HC Hne Hr Hm1 Hm2 Hng Hngs); try done.
      intros k sg j t d l Hkg Ht Hd Hl. rewrite Forall_forall in Hk. destruct (HL k sg j t l Hkg Ht (Hk l Hl)) as (a0 & q0 & Ha0 & Hq0). unfold layer_of in Ha0. rewrite Hd in Ha0. eauto.
    + intros l arr Hl Hqa. destruct (vr_sim e known_args size sub false zarr disk g' ct l r None None (m_positive_up (g_meta g')) false (shown (m_positive_up (g_meta g')) l) g' (Some [arr]) Hs Hsub (fun _ h => h) HC) as (_ & o' & Hq' & Hsame); [by eapply kept_std| | |exact Hqa|by exists o'].
      * unfold shown. case_bool_decide; [subst l|done]. done.
      * intros m v. replace (eff_up m (eff_up (g_meta g') false)) with (xorb (eff_up m (eff_up (g_meta g') (m_positive_up (g_meta g')))) (m_positive_up (g_meta g'))) by (unfold eff_up; by destruct (m_positive_up (g_meta g')), (m_positive_up m)). apply view_shown. by right.
Qed.
(** The csv file of a grid of either kind, with any history, that was gridded with 'mean' or 'shoalest' and has no other
    layers than that gave it, lists for every cell with soundings, once, what these soundings say. *)
Theorem C124_lines e alg r ct T (O : tile_ops T) g ls up g1 fs :
  alg = "mean" \/ alg = "shoalest" -> 0 < r -> ct <> [] -> gridded e alg r ct T O g ->
  g_return_layer_names O g = Ok ls -> NoDup ls -> Forall (kept_layer e alg) ls -> export_csv O e g up (Some r) = Ok (g1, fs) ->
  g1 = g /\ exists f, fs = [f] /\ cf_names f = "x" :: "y" :: map (heading up) ls /\
    csv_of_points e alg r (m_positive_up (g_meta g)) (up && negb (Qle_bool (m_mean_depth (g_meta g)) 0)) (all_points ct) ls f.
Proof.
  intros Halg Hr Hne G Hls Hnd Hk Hc. destruct (gridded_sized e alg r ct T O g Halg Hne G) as (x & X1 & X2 & X3).
  destruct ls as [|l0 ls'] eqn:El; [exfalso; by eapply csv_no_layers|]. rewrite <- El in *. assert (Hl0 : ls <> []) by (by rewrite El). clear El.
  destruct (gridded_layers e alg r ct T O g ls Halg Hr Hne G Hls Hl0 Hnd Hk) as [L1 L2].
  exact (csv_points O e alg r (all_points ct) g ls (gridded_settled e alg r ct T O g Halg Hr Hne G) Hls Hk L1 L2 x X1 X2 X3 up g1 fs Hc).
Qed.
(** Such a file can be written. *)
Theorem C124_written e alg r ct T (O : tile_ops T) g ls up :
  alg = "mean" \/ alg = "shoalest" -> 0 < r -> all_points ct <> [] -> gridded e alg r ct T O g ->
  g_return_layer_names O g = Ok ls -> ls <> [] -> NoDup ls -> Forall (kept_layer e alg) ls -> exists f, export_csv O e g up (Some r) = Ok (g, [f]).
Proof.
  intros Halg Hr Hp G Hls Hl0 Hnd Hk. assert (Hne : ct <> []) by (by intros ->). destruct (gridded_sized e alg r ct T O g Halg Hne G) as (x & X1 & _).
  destruct (gridded_layers e alg r ct T O g ls Halg Hr Hne G Hls Hl0 Hnd Hk) as [L1 L2]. destruct (all_points ct) as [|p d] eqn:Ed; [done|].
  assert (Hin : p ∈ all_points ct) by (rewrite Ed; left).
  destruct (csv_written O e alg r (all_points ct) g ls (gridded_settled e alg r ct T O g Halg Hr Hne G) Hls Hk L1 L2 x X1 up p Hl0 Hin) as (g1 & fs & Hc).
  destruct (C124_lines e alg r ct T O g ls up g1 fs Halg Hr Hne G Hls Hnd Hk Hc) as (-> & f & -> & _). by exists f.
Qed.
(** The densities that the file lists add up to the number of soundings. *)
Theorem C124_total e alg r ct T (O : tile_ops T) g ls up g1 f i :
  alg = "mean" \/ alg = "shoalest" -> 0 < r -> ct <> [] -> gridded e alg r ct T O g ->
  g_return_layer_names O g = Ok ls -> NoDup ls -> Forall (kept_layer e alg) ls -> export_csv O e g up (Some r) = Ok (g1, [f]) -> ls !! i = Some "density" ->
  (sumQ (omap id (omap (fun ln : Q * Q * list cell => ln.2 !! i) (cf_lines f))) == numQ (length (all_points ct)))%Q.
Proof.
  intros Halg Hr Hne G Hls Hnd Hk Hc Hi. destruct (C124_lines e alg r ct T O g ls up g1 [f] Halg Hr Hne G Hls Hnd Hk Hc) as (_ & f' & [= <-] & _ & HP). by eapply csv_total.
Qed.
(** Five soundings, in single resolution tiles of side 8 and in a variable resolution grid: four columns, five lines with values. *)
Example C124_case :
  gridded env_s "mean" 4 ct_2 tile sr_ops (st_of (g_grid sr_ops env_s sr_2 mean_4 None)) /\
  g_return_layer_names sr_ops run_1 = Ok ["depth"; "density"; "vertical_uncertainty"; "horizontal_uncertainty"] /\
  Forall (kept_layer env_s "mean") ["depth"; "density"; "vertical_uncertainty"; "horizontal_uncertainty"] /\
  exists g1 f ln, export_csv sr_ops env_s run_1 false (Some 4) = Ok (g1, [f]) /\ length (cf_lines f) = 20%nat /\ ln ∈ cf_lines f /\ (ln.1.1 == -2)%Q /\ (ln.1.2 == -6)%Q /\ ln.2 = [Some 5; Some 1; Some 1; Some 1]%Q.
Proof.
  split; [apply (Gridded_sr _ _ _ _ 8 false true sr_2 mean_4 None); [lia|reflexivity|apply sr_2_clean|split; reflexivity|intros E; discriminate E|vm_compute; reflexivity|apply Q_none]|].
  split; [vm_compute; reflexivity|]. split; [repeat (constructor; [unfold kept_layer; vm_compute; tauto|]); constructor|].
  eexists _, _, _. split; [vm_compute; reflexivity|]. split; [reflexivity|]. split; [apply elem_of_list_here|]. split; [reflexivity|]. split; reflexivity.
Qed.
Print Assumptions C124_lines.
Print Assumptions C124_written.
Print Assumptions C124_total.
