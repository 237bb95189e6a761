(** Property C125: the names of the layers of a grid. *)
From Verif Require Import Py Nd Numpy Point Bin Algorithms Tile Time Meta Disk Grid GridRun GridQuery GridOps
  Spec TileExec GridExec LayerNameSpec Samples GridSamples PyFacts TileFacts TileHistFacts GridBaseFacts GridInvFacts GridPlaceFacts GridPropFacts GridRunFacts GridCountFacts GridRootFacts GridSrFacts GridHistFacts GridCleanFacts GridUpdateFacts GridFlagFacts GridReadFacts GridMultiFacts GridMultiVrFacts LayerNameFacts Export WholeSpec SameSpec CsvSpec CsvPointSpec Properties_CsvPoints.
Open Scope Z_scope.

(** A tile gridded anew, whatever it held, has one resolution with the layers of the algorithm and of the columns of the soundings. *)
Theorem C125_tile e t alg ro mode gp border t' r : alg ∈ ["mean"; "shoalest"; "cube"] -> t_grid e t alg ro true mode gp border = Ok (t', r) ->
  exists l, t_cells t' = [(r, l)] /\ dkeys l = given_layers (t_backscatter t) false alg (has_tvu (e_dt e)) (has_thu (e_dt e)).
Proof. apply grid_keys. Qed.
(** A grid gridded anew lists these. *)
Theorem C125_sr e size b zarr disk g ct a dask :
  0 < size -> sr_clean e known_args size b zarr disk g ct -> known_args a -> ga_clear a = true -> exn_of (g_grid sr_ops e g a dask) = None ->
  g_return_layer_names sr_ops (st_of (g_grid sr_ops e g a dask)) = Ok (given_layers b disk (ga_alg a) (has_tvu (e_dt e)) (has_thu (e_dt e))).
Proof.
  intros Hs H HA Hc Hx. destruct (sr_clean_inv e (fun _ _ => True) known_args size b zarr disk Hs known_allows g ct H) as (Hd & seen & ok & HI).
  assert (Hor : origins sr_ops g) by (by eapply root_origins).
  assert (HG : sr_clean e known_args size b zarr disk (st_of (g_grid sr_ops e g a dask)) ct) by (by apply CH_grid).
  destruct (sr_clean_inv e (fun _ _ => True) known_args size b zarr disk Hs known_allows _ ct HG) as (_ & seen' & ok' & HI').
  apply sr_names_of.
  - by apply (sr_done_some e (new_sr_meta 0 0 size b zarr) _ g ct seen ok a dask Hs HI).
  - apply (root_live (new_sr_meta 0 0 size b zarr) _ _ _ _ _ Hs HI'). intros ->. pose proof HI as [_ [(E & _)|(Hn & _)]]; [|done]. by apply done_tiles in Hx.
  - intros k t' Ht'. rewrite <- Hd. refine (sr_named e b g a dask k t' Hor HA Hc Hx _ Ht'). intros t Ht.
    destruct (root_rep _ _ _ _ _ _ _ _ HI Ht) as (x & y & ct' & (((_ & _ & _ & Hb) & _) & _) & _). done.
Qed.
(** The same for variable resolution, whose sub-grids are never of backscatter; the order for CUBE is that of one of the two kinds of grids. *)
Theorem C125_vr e size sub b zarr disk g ct a dask :
  0 < size -> 0 < sub -> vr_clean e known_args size sub b zarr disk g ct -> known_args a -> ga_clear a = true -> exn_of (g_grid vr_ops e g a dask) = None ->
  exists stored, g_return_layer_names vr_ops (st_of (g_grid vr_ops e g a dask)) = Ok (given_layers false stored (ga_alg a) (has_tvu (e_dt e)) (has_thu (e_dt e))).
Proof.
  intros Hs Hsub H HA Hc Hx. destruct (vr_clean_inv e (fun _ _ => True) known_args size sub b zarr disk Hs Hsub known_allows g ct H) as (Hd & seen & ok & HI).
  assert (HG : vr_clean e known_args size sub b zarr disk (st_of (g_grid vr_ops e g a dask)) ct) by (by apply CH_grid).
  destruct (vr_clean_inv e (fun _ _ => True) known_args size sub b zarr disk Hs Hsub known_allows _ ct HG) as (_ & seen' & ok' & HI').
  set (ns d := given_layers false d (ga_alg a) (has_tvu (e_dt e)) (has_thu (e_dt e))).
  assert (HN : g_return_layer_names vr_ops (st_of (g_grid vr_ops e g a dask)) = Ok (ns true) \/ g_return_layer_names vr_ops (st_of (g_grid vr_ops e g a dask)) = Ok (ns false)).
  { apply vr_names_of.
    - by apply (vr_done_some e (new_vr_meta 0 0 size sub b zarr) _ g ct seen ok a dask Hs HI).
    - apply (root_live (new_vr_meta 0 0 size sub b zarr) _ _ _ _ _ Hs HI'). intros ->. pose proof HI as [_ [(E & _)|(Hn & _)]]; [|done]. by apply done_tiles in Hx.
    - intros k sg' Hk. destruct (root_rep _ _ _ _ _ _ _ _ HI' Hk) as (x & y & ct' & (HC & _) & Hne').
      destruct HC as [HB [(_ & ? & _)|(_ & a0 & Pl & Hn & _)]]; [done|].
      assert (Hl : exists t, t ∈ live_tiles sg').
      { destruct Pl as [P1 P2 P3 P4 P5 P6 P7 P8]. destruct (slots_live (sub0 size sub b zarr x y) _ Hsub _ _ _ _ _ _ P7 P8) as (j & t & Hj); [rewrite all_points_nil_iff by apply HB; done|].
        exists t. unfold live_tiles. rewrite P4. apply elem_of_list_omap. exists (Some t). split; [|done]. by eapply elem_of_list_lookup_2. }
      split; [|split; [done|]].
      + exists (count_live (nflat a0)). split; [done|]. assert (Hg : g_tiles sg' = Some a0) by apply Pl. destruct Hl as [t Ht].
        destruct (live_tiles sg') as [|u l] eqn:El; [by apply not_elem_of_nil in Ht|]. unfold live_tiles in El. rewrite Hg in El.
        unfold count_live. replace (omap id (nflat a0)) with (u :: l) by exact (eq_sym El). cbn. lia.
      + intros j t' Hj. destruct (vr_named e false g a dask k sg' j t' HA Hc Hx) as [[|] HT]; [|done|done|by left|by right]. intros k0 sg Hk0.
        destruct (root_rep _ _ _ _ _ _ _ _ HI Hk0) as (x0 & y0 & ct0 & (HC0 & _) & _). split; [by eapply child_origins|]. intros i t Ht.
        destruct (child_rep _ _ _ _ _ _ _ _ _ HC0 Ht) as (x1 & y1 & ct1 & (((_ & _ & _ & Hb) & _) & _) & _). exact Hb. }
  destruct HN as [HN|HN]; [by exists true|by exists false].
Qed.
(** In any state: if a single resolution grid is not taken for one without grid, its first tile has layers and these are listed. *)
Theorem C125_first_sr (g : sr_grid) t ts : live_tiles g = t :: ts -> g_no_grid sr_ops g = Ok false ->
  exists r l c, t_cells t = (r, l) :: c /\ g_return_layer_names sr_ops g = Ok (dkeys l).
Proof.
  intros El Hn. unfold g_return_layer_names. rewrite Hn. cbn [rbind]. rewrite El. unfold g_no_grid in Hn. destruct (g_tiles g); [|done]. rewrite El in Hn. cbn in Hn.
  destruct (t_cells t) as [|[r l] c] eqn:Ec; [done|]. exists r, l, c. split; [done|]. cbn. by rewrite Ec.
Qed.
(** In any state of a variable resolution grid that is not taken for one without grid: the layers of the first gridded sub-tile of the first
    sub-grid that has one are listed, none if there is none. *)
Theorem C125_first_vr (g : vr_grid) pre sg post pre' t post' r l c : g_no_grid vr_ops g = Ok false ->
  (forall s, s ∈ live_tiles g -> exists n, m_ntiles (g_meta s) = Some n /\ 0 < n) ->
  live_tiles g = pre ++ sg :: post -> (forall s u, s ∈ pre -> u ∈ live_tiles s -> t_cells u = []) ->
  live_tiles sg = pre' ++ t :: post' -> (forall u, u ∈ pre' -> t_cells u = []) -> t_cells t = (r, l) :: c ->
  g_return_layer_names vr_ops g = Ok (dkeys l).
Proof.
  intros Hn Hsub El Hpre El' Hpre' Ht. unfold g_return_layer_names. rewrite Hn. cbn [rbind]. rewrite El, map_app. cbn [map].
  assert (Hf : forall s, s ∈ live_tiles g -> op_first_layers vr_ops s = first_found (map (op_first_layers sr_ops) (live_tiles s))).
  { intros s Hs. destruct (Hsub s Hs) as (n & Hn' & Hn0). cbn [vr_ops grid_ops op_first_layers]. rewrite Hn'. destruct (Z.ltb_spec 0 n); [done|lia]. }
  rewrite (Hf sg) by (rewrite El; apply elem_of_app; right; left). rewrite (first_in_sub sg pre' t post' r l c El' Hpre' Ht).
  rewrite found_skip; [done|]. apply Forall_forall. intros x (s & -> & Hs)%elem_of_list_fmap. rewrite Hf by (rewrite El; apply elem_of_app; by left).
  apply none_in_sub. intros u Hu. exact (Hpre s u Hs Hu).
Qed.
(** Grids with uncertainties; with CUBE, in memory and on disk; sub-grids of which the first is not gridded. *)
Example C125_case :
  sr_clean env_s known_args 8 false false true sr_2 ct_2 /\ ga_clear (grid_args "mean" 4 true "full") = true /\
  g_return_layer_names sr_ops (st_of (g_grid sr_ops env_s sr_2 (grid_args "mean" 4 true "full") None)) = Ok ["depth"; "density"; "vertical_uncertainty"; "horizontal_uncertainty"] /\
  given_layers true true "cube" true true = ["intensity"; "density"; "total_uncertainty"; "hypothesis_count"; "hypothesis_ratio"] /\
  g_return_layer_names vr_ops vrun_1 = Ok ["depth"; "density"; "vertical_uncertainty"; "horizontal_uncertainty"].
Proof. split; [apply sr_2_clean|]. split; [reflexivity|]. split; [vm_compute; reflexivity|]. split; vm_compute; reflexivity. Qed.

(** ** C124 without conditions on the layers *)
Lemma given_kept e alg stored : alg = "mean" \/ (alg = "shoalest" /\ has_tvu (e_dt e) = false /\ has_thu (e_dt e) = false) ->
  let ns := given_layers false stored alg (has_tvu (e_dt e)) (has_thu (e_dt e)) in ns <> [] /\ NoDup ns /\ Forall (kept_layer e alg) ns.
Proof.
  intros [->|(-> & E1 & E2)] ns; unfold ns, given_layers; cbn [String.eqb Ascii.eqb Bool.eqb]; [destruct (has_tvu (e_dt e)) eqn:E1, (has_thu (e_dt e)) eqn:E2|rewrite E1, E2];
    (split; [done|split; [apply (bool_decide_unpack _); vm_compute; exact I|]]); repeat (constructor; [unfold kept_layer; tauto|]); constructor.
Qed.
(** Right after gridding anew with 'mean' (or 'shoalest' without uncertainties) the csv file can be written and says what the soundings say. *)
Theorem C124_sr_fresh e alg r size zarr disk g ct a dask up :
  alg = "mean" \/ (alg = "shoalest" /\ has_tvu (e_dt e) = false /\ has_thu (e_dt e) = false) -> 0 < r -> all_points ct <> [] ->
  0 < size -> size mod r = 0 -> sr_clean e known_args size false zarr disk g ct -> only_args alg r a -> ga_clear a = true -> exn_of (g_grid sr_ops e g a dask) = None ->
  let g' := st_of (g_grid sr_ops e g a dask) in let ls := given_layers false disk alg (has_tvu (e_dt e)) (has_thu (e_dt e)) in
  exists f, export_csv sr_ops e g' up (Some r) = Ok (g', [f]) /\ cf_names f = "x" :: "y" :: map (heading up) ls /\
    csv_of_points e alg r (m_positive_up (g_meta g')) (up && negb (Qle_bool (m_mean_depth (g_meta g')) 0)) (all_points ct) ls f.
Proof.
  intros Halg Hr Hp Hs Hm H Ha Hc Hx g' ls. assert (Halg' : alg = "mean" \/ alg = "shoalest") by tauto. destruct Ha as [Ea Er].
  assert (HA : known_args a) by (unfold known_args; rewrite Ea; destruct Halg' as [->| ->]; apply (bool_decide_unpack _); vm_compute; exact I).
  pose proof (C125_sr e size false zarr disk g ct a dask Hs H HA Hc Hx) as Hls. rewrite Ea in Hls. fold g' ls in Hls.
  destruct (given_kept e alg disk Halg) as (N1 & N2 & N3). fold ls in N1, N2, N3.
  assert (G : gridded e alg r ct tile sr_ops g') by (refine (Gridded_sr e alg r ct size zarr disk g a dask g' Hs Hm H (conj Ea Er) (fun _ => Hc) Hx _); apply Q_none).
  destruct (C124_written e alg r ct tile sr_ops g' ls up Halg' Hr Hp G Hls N1 N2 N3) as (f & Hf). exists f. split; [done|].
  assert (Hne : ct <> []) by (by intros ->). destruct (C124_lines e alg r ct tile sr_ops g' ls up g' [f] Halg' Hr Hne G Hls N2 N3 Hf) as (_ & f' & [= <-] & H1 & H2). done.
Qed.
Theorem C124_vr_fresh e alg r size sub zarr disk g ct a dask up :
  alg = "mean" \/ (alg = "shoalest" /\ has_tvu (e_dt e) = false /\ has_thu (e_dt e) = false) -> 0 < r -> all_points ct <> [] ->
  0 < size -> 0 < sub -> size mod sub = 0 -> sub mod r = 0 -> vr_clean e known_args size sub false zarr disk g ct -> only_args alg r a -> ga_clear a = true -> exn_of (g_grid vr_ops e g a dask) = None ->
  let g' := st_of (g_grid vr_ops e g a dask) in
  exists stored f, let ls := given_layers false stored alg (has_tvu (e_dt e)) (has_thu (e_dt e)) in
    export_csv vr_ops e g' up (Some r) = Ok (g', [f]) /\ cf_names f = "x" :: "y" :: map (heading up) ls /\
    csv_of_points e alg r (m_positive_up (g_meta g')) (up && negb (Qle_bool (m_mean_depth (g_meta g')) 0)) (all_points ct) ls f.
Proof.
  intros Halg Hr Hp Hs Hsub Hm1 Hm2 H Ha Hc Hx g'. assert (Halg' : alg = "mean" \/ alg = "shoalest") by tauto. destruct Ha as [Ea Er].
  assert (HA : known_args a) by (unfold known_args; rewrite Ea; destruct Halg' as [->| ->]; apply (bool_decide_unpack _); vm_compute; exact I).
  destruct (C125_vr e size sub false zarr disk g ct a dask Hs Hsub H HA Hc Hx) as (stored & Hls). rewrite Ea in Hls. fold g' in Hls.
  set (ls := given_layers false stored alg (has_tvu (e_dt e)) (has_thu (e_dt e))) in *. destruct (given_kept e alg stored Halg) as (N1 & N2 & N3). fold ls in N1, N2, N3.
  assert (G : gridded e alg r ct sr_grid vr_ops g') by (refine (Gridded_vr e alg r ct size sub zarr disk g a dask g' Hs Hsub Hm1 Hm2 H (conj Ea Er) (fun _ => Hc) Hx _); apply Q_none).
  destruct (C124_written e alg r ct sr_grid vr_ops g' ls up Halg' Hr Hp G Hls N1 N2 N3) as (f & Hf). exists stored, f. fold ls. split; [done|].
  assert (Hne : ct <> []) by (by intros ->). destruct (C124_lines e alg r ct sr_grid vr_ops g' ls up g' [f] Halg' Hr Hne G Hls N2 N3 Hf) as (_ & f' & [= <-] & H1 & H2). done.
Qed.
Example C124_fresh_case : only_args "mean" 4 (grid_args "mean" 4 true "full") /\ exn_of (g_grid sr_ops env_s sr_2 (grid_args "mean" 4 true "full") None) = None /\
  exn_of (g_grid vr_ops env_s vr_2 (grid_args "mean" 4 true "full") None) = None /\ all_points ct_2 <> [].
Proof. split; [split; reflexivity|]. split; [vm_compute; reflexivity|]. split; [vm_compute; reflexivity|]. intros E. discriminate E. Qed.
Print Assumptions C124_sr_fresh.
Print Assumptions C124_vr_fresh.
Print Assumptions C125_tile.
Print Assumptions C125_sr.
Print Assumptions C125_vr.
Print Assumptions C125_first_sr.
Print Assumptions C125_first_vr.
