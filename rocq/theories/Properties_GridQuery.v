(** Properties of reading layers out of a grid: C35 to C41. *)
From Coq Require Import Lqa.
From Verif Require Import Py Nd Numpy Point Bin Algorithms Tile Time Meta Disk Grid GridRun GridQuery GridOps
  Spec TileExec GridExec Samples GridSamples PyFacts NdFacts NumpyFacts AlgFacts BinFacts TileFacts TileGridFacts TileRunFacts TileHistFacts ShoalFacts TilePropFacts TileQueryFacts
  GridBaseFacts GridPlaceFacts GridInvFacts GridRootFacts GridEvolveFacts GridSrFacts GridPropFacts GridHistFacts GridRunFacts GridCleanFacts
  GridUpdateFacts GridDensityFacts GridFlagFacts GridLayerFacts GridReadFacts GridAnswerFacts GridTrimFacts GridMultiFacts.
Open Scope Z_scope.

(** ** C35 *)
(** The depth layer (intensity for a backscatter grid), in the sign convention of the grid. *)
Theorem C35_depth e alg r size b zarr disk g ct a dask :
  alg = "mean" \/ alg = "shoalest" -> 0 < size -> sr_clean e known_args size b zarr disk g ct -> ct <> [] ->
  only_args alg r a -> (ga_regrid a = "update" -> ga_clear a = true) -> exn_of (g_grid sr_ops e g a dask) = None ->
  0 < r -> size mod r = 0 ->
  let g' := st_of (g_grid sr_ops e g a dask) in
  answers e g' (if b then "intensity" else "depth") r (m_positive_up (g_meta g')) (all_points ct)
    (fun d => if bool_decide (alg = "mean") then mean_cell (map pz d) else least_cell (map pz d)).
Proof.
  intros Halg Hs H Hne Ha Hu Hx Hr Hm g'.
  destruct (sr_answers e alg r size b zarr disk g ct a dask Halg Hs H Hne Ha Hu Hx Hr Hm) as [HD _].
  destruct (HD (m_positive_up (g_meta g'))) as [D1 D2]; [left; unfold eff_up; fold g'; by destruct (m_positive_up (g_meta g'))|].
  case_bool_decide; [by apply D1|]. destruct Halg as [?| ->]; [done|]. by apply D2.
Qed.
Theorem C35_density e alg r size b zarr disk g ct a dask up :
  alg = "mean" \/ alg = "shoalest" -> 0 < size -> sr_clean e known_args size b zarr disk g ct -> ct <> [] ->
  only_args alg r a -> (ga_regrid a = "update" -> ga_clear a = true) -> exn_of (g_grid sr_ops e g a dask) = None ->
  0 < r -> size mod r = 0 ->
  answers e (st_of (g_grid sr_ops e g a dask)) "density" r up (all_points ct) (fun d v => v = Some (numQ (length d))).
Proof.
  intros Halg Hs H Hne Ha Hu Hx Hr Hm. by apply (sr_answers e alg r size b zarr disk g ct a dask Halg Hs H Hne Ha Hu Hx Hr Hm).
Qed.
Theorem C35_uncertainty e r size b zarr disk g ct a dask up :
  0 < size -> sr_clean e known_args size b zarr disk g ct -> ct <> [] ->
  only_args "mean" r a -> (ga_regrid a = "update" -> ga_clear a = true) -> exn_of (g_grid sr_ops e g a dask) = None ->
  0 < r -> size mod r = 0 ->
  let g' := st_of (g_grid sr_ops e g a dask) in
  (has_tvu (e_dt e) = true -> answers e g' "vertical_uncertainty" r up (all_points ct) (fun d => mean_cell (map ptvu d))) /\
  (has_thu (e_dt e) = true -> answers e g' "horizontal_uncertainty" r up (all_points ct) (fun d => mean_cell (map pthu d))).
Proof.
  intros Hs H Hne Ha Hu Hx Hr Hm g'.
  destruct (sr_answers e "mean" r size b zarr disk g ct a dask (or_introl eq_refl) Hs H Hne Ha Hu Hx Hr Hm) as [_ HD].
  destruct (HD up) as (_ & D1 & D2). split; [by apply D1|by apply D2].
Qed.
Print Assumptions C35_depth.
Print Assumptions C35_density.
Print Assumptions C35_uncertainty.
(** Five soundings in three of the six tiles of a grid, one of them with negative coordinates. *)
Example C35_case : only_args "mean" 4 mean_4 /\ sr_clean env_s known_args 8 false false true sr_2 ct_2 /\ ct_2 <> [] /\
  exn_of (g_grid sr_ops env_s sr_2 mean_4 None) = None /\ 8 mod 4 = 0 /\
  match g_get_layers_by_name sr_ops env_s run_1 ["depth"] (Some 4) None false with
  | Ok (_, Some [a]) => nrows a = 6%nat /\ ncols a = 8%nat /\ nd_get a 0 1 = Some (Some 5%Q) /\ nd_get a 2 4 = Some (Some 7%Q) /\ nd_get a 0 0 = Some None
  | _ => False
  end.
Proof. split; [done|]. split; [apply sr_2_clean|]. split; [done|]. split; [by vm_compute|]. split; [done|]. vm_compute. by repeat split. Qed.

(** ** C36 *)
(** When every tile that has the resolution has a value in each of the layers asked for, asking for them
    together gives the list of the answers to each of them. *)
Theorem C36_sr_partial e size b zarr disk g ct r ls nodata up :
  0 < size -> sr_clean e known_args size b zarr disk g ct -> ct <> [] -> 0 < r -> size mod r = 0 -> g_no_grid sr_ops g = Ok false ->
  ls <> [] -> NoDup ls -> Forall (fun l => l ∈ float_layers ++ int_layers) ls ->
  (forall k t d l, tile_at g k = Some t -> dget (t_cells t) r = Some d -> l ∈ ls -> exists a q, dget d l = Some a /\ Some q ∈ nflat a) ->
  exists o, g_get_layers_by_name sr_ops e g ls (Some r) nodata up = Ok (g, o) /\
  match o with
  | Some arrs => Forall2 (fun l a => g_get_layers_by_name sr_ops e g [l] (Some r) nodata up = Ok (g, Some [a])) ls arrs
  | None => Forall (fun l => g_get_layers_by_name sr_ops e g [l] (Some r) nodata up = Ok (g, None)) ls
  end.
Proof. intros Hs H. by apply (sr_multi e known_args size b zarr disk g ct r ls nodata up Hs (fun _ h => h) H). Qed.
(** Full statement: [arrs] is the list of the answers to each layer for every list [ls]. It is false: where
    a tile has nothing for a layer, the next one takes its place. Here only the first of the three tiles
    has soundings of container "three", so the depths of the other tiles land in its array. *)
Definition mixed := sr_run env_s (sr_add sr_2 pts_three "three") mean_4.
Theorem C36_mixed_refuted :
  exists e size g ct r l1 l2 arrs g1 a1 R C q, 0 < size /\ sr_clean e known_args size false false true g ct /\
    (exists g', g_get_layers_by_name sr_ops e g [l1; l2] (Some r) None false = Ok (g', Some arrs)) /\
    g_get_layers_by_name sr_ops e g [l1] (Some r) None false = Ok (g1, Some [a1]) /\
    nd_get a1 R C = Some None /\ (exists a, arrs !! 0%nat = Some a /\ nd_get a R C = Some (Some q)).
Proof.
  pose (q := fun ls => match g_get_layers_by_name sr_ops env_s mixed ls (Some 4) None false with Ok (g', Some a) => (g', a) | _ => (mixed, []) end).
  exists env_s, 8, mixed, ct_3, 4, "three", "depth", (q ["three"; "depth"]).2, (q ["three"]).1, (default (nd_full 0 0 None) (head (q ["three"]).2)), 2%nat, 4%nat, 7%Q.
  split; [done|]. split.
  { apply (CH_grid _ _ _ _ (sr_add sr_2 pts_three "three") ct_3 mean_4 None); [|apply elem_of_list_here|by vm_compute].
    apply (CH_add _ _ _ _ sr_2 ct_2 pts_three (args_of "three")); [apply sr_2_clean|by vm_compute]. }
  split; [exists (q ["three"; "depth"]).1; by vm_compute|]. split; [by vm_compute|]. split; [by vm_compute|].
  exists (default (nd_full 0 0 None) (head (q ["three"; "depth"]).2)). split; by vm_compute.
Qed.
Print Assumptions C36_sr_partial.
Print Assumptions C36_mixed_refuted.
(** Whether every tile that has resolution [r] has a value in each of the layers. *)
Definition all_have (g : sr_grid) (r : Z) (ls : list string) : bool :=
  forallb (fun o : option tile => match o with
    | Some t => match dget (t_cells t) r with
                | Some d => forallb (fun l => match dget d l with Some a => existsb (fun c : cell => match c with Some _ => true | None => false end) (nflat a) | None => false end) ls
                | None => true end
    | None => true end) (match g_tiles g with Some a => nflat a | None => [] end).
Lemma all_have_spec g r ls : all_have g r ls = true ->
  forall k t d l, tile_at g k = Some t -> dget (t_cells t) r = Some d -> l ∈ ls -> exists a q, dget d l = Some a /\ Some q ∈ nflat a.
Proof.
  intros Hall k t d l Ht Hd Hl. unfold all_have in Hall.
  rewrite forallb_forall in Hall. unfold tile_at in Ht. destruct (g_tiles g) as [a|]; [|done]. destruct (nflat a !! k) as [o|] eqn:E; [|done]. cbn in Ht. subst o.
  specialize (Hall (Some t)). cbn beta iota in Hall. rewrite Hd in Hall.
  assert (Hin : In (Some t) (nflat a)) by (by apply elem_of_list_In, elem_of_list_lookup; exists k). specialize (Hall Hin). rewrite forallb_forall in Hall.
  specialize (Hall l (proj1 (elem_of_list_In _ _) Hl)). destruct (dget d l) as [b|]; [|done]. apply existsb_exists in Hall as ([q|] & Hq & Hc); [|done].
  exists b, q. split; [done|]. by apply elem_of_list_In.
Qed.
Example C36_case : sr_clean env_s known_args 8 false false true run_1 ct_2 /\ g_no_grid sr_ops run_1 = Ok false /\ NoDup ["density"; "depth"] /\
  (forall k t d l, tile_at run_1 k = Some t -> dget (t_cells t) 4 = Some d -> l ∈ ["density"; "depth"] -> exists a q, dget d l = Some a /\ Some q ∈ nflat a) /\
  match g_get_layers_by_name sr_ops env_s run_1 ["density"; "depth"] (Some 4) None false with
  | Ok (_, Some [a; b]) => nd_get a 2 4 = Some (Some 1%Q) /\ nd_get b 2 4 = Some (Some 7%Q)
  | _ => False
  end.
Proof.
  split; [apply (CH_grid _ _ _ _ sr_2 ct_2 mean_4 None); [apply sr_2_clean|apply elem_of_list_here|by vm_compute]|].
  split; [by vm_compute|]. split; [apply (bool_decide_unpack _); vm_compute; exact I|]. split; [|vm_compute; by repeat split].
  apply all_have_spec. by vm_compute.
Qed.

(** ** C37 *)
(** What a trimmed query returns is the part of each full layer in the smallest box with all values of the
    first of them. *)
Theorem C37_trimmed {T} (O : tile_ops T) e g ls rez nodata up g' arrs r0 c0 r1 c1 :
  g_get_layers_trimmed O e g ls rez nodata up = Ok (g', (arrs, (r0, c0), (r1, c1))) ->
  exists full first, g_get_layers_by_name O e g ls rez nodata up = Ok (g', Some full) /\ head full = Some first /\
    value_box first r0 c0 r1 c1 /\ Forall2 (part_of r0 c0 r1 c1) full arrs.
Proof. apply trimmed. Qed.
(** It returns whenever the full query does and the first layer has a value. *)
Theorem C37_returns {T} (O : tile_ops T) e g ls rez nodata up g' full first R C :
  g_get_layers_by_name O e g ls rez nodata up = Ok (g', Some full) -> head full = Some first -> holds first R C ->
  exists arrs lo hi, g_get_layers_trimmed O e g ls rez nodata up = Ok (g', (arrs, lo, hi)).
Proof. apply trimmed_ok. Qed.
Print Assumptions C37_trimmed.
Print Assumptions C37_returns.
Example C37_case : match g_get_layers_trimmed sr_ops env_s run_1 ["depth"; "density"] (Some 4) None false with
  | Ok (_, ([a; b], lo, hi)) => lo = (0%nat, 1%nat) /\ hi = (4%nat, 6%nat) /\ nrows a = 4%nat /\ ncols b = 5%nat /\ nd_get a 2 3 = Some (Some 7%Q)
  | _ => False
  end.
Proof. vm_compute. by repeat split. Qed.

(** ** C38 *)
(** Every location gets the value of the cell that contains it, or NaN outside, except that locations in the
    last row or column of the grid always get NaN. *)
Theorem C38_values_partial {T} (O : tile_ops T) e g l r g' a x R C xs ys :
  g_get_layers_by_name O e g [l] (Some r) None false = Ok (g', Some [a]) -> m_ext (g_meta g) = Some x -> holds a R C ->
  0 < r -> Z.of_nat (nrows a) * r = y1 x - y0 x -> Z.of_nat (ncols a) * r = x1 x - x0 x ->
  length xs = length ys -> xs <> [] ->
  exists vals, g_layer_values_at_xy O e g xs ys l (Some r) None = Ok (g', vals) /\
    Forall2 (fun p v => (in_last x r a p -> v = None) /\ (~ in_last x r a p -> value_at x r a p v)) (zip xs ys) vals.
Proof. apply values_spec. Qed.
(** In a gridded single resolution grid: the density at each location that is not in the last row or column
    is the number of soundings in its cell. The same holds of the other layers of C35. *)
Theorem C38_sr_partial e alg r size b zarr disk g ct a dask xs ys :
  alg = "mean" \/ alg = "shoalest" -> 0 < size -> sr_clean e known_args size b zarr disk g ct -> ct <> [] ->
  only_args alg r a -> (ga_regrid a = "update" -> ga_clear a = true) -> exn_of (g_grid sr_ops e g a dask) = None ->
  0 < r -> size mod r = 0 -> length xs = length ys -> xs <> [] ->
  let g' := st_of (g_grid sr_ops e g a dask) in
  exists x vals, m_ext (g_meta g') = Some x /\ g_layer_values_at_xy sr_ops e g' xs ys "density" (Some r) None = Ok (g', vals) /\
    Forall2 (fun p v => forall R C, in_cell (x0 x) (y0 x) r R C p.1 p.2 ->
      x0 x <= p.1 < x1 x - r -> y0 x <= p.2 < y1 x - r -> v = Some (numQ (length (points_in_cell (x0 x) (y0 x) r R C (all_points ct))))) (zip xs ys) vals.
Proof.
  intros Halg Hs H Hne Ha Hu Hx Hr Hm Hlen Hxs g'.
  destruct (C35_density e alg r size b zarr disk g ct a dask false Halg Hs H Hne Ha Hu Hx Hr Hm) as (x & arr & X1 & X2 & X3 & X4 & X5 & X6). fold g' in X1, X2.
  assert (Hpos : (0 < nrows arr)%nat /\ (0 < ncols arr)%nat).
  { assert (Hk : known_args a). { destruct Ha as [Ha _]. unfold known_args. rewrite Ha. destruct Halg as [->| ->]; apply (bool_decide_unpack _); vm_compute; exact I. }
    assert (H' : sr_clean e known_args size b zarr disk g' ct) by (by apply CH_grid).
    destruct (sr_frame _ _ _ _ _ _ _ _ Hs (fun _ h => h) H' Hne) as (lx & ly & nx & ny & HF). rewrite (fr_ext _ _ _ _ _ _ _ HF) in X1. injection X1 as <-. cbn in X4, X5.
    pose proof (fr_nx _ _ _ _ _ _ _ HF). pose proof (fr_ny _ _ _ _ _ _ _ HF). split; apply Nat2Z.inj_lt; cbn; nia. }
  destruct (X6 0%nat 0%nat) as (v0 & V1 & V2); [lia|lia|].
  destruct (C38_values_partial sr_ops e g' "density" r g' arr x 0 0 xs ys) as (vals & Hv & HF); try done; [by eexists; rewrite V1, V2|].
  exists x, vals. split; [done|]. split; [done|]. eapply Forall2_impl; [exact HF|]. intros p v [_ HV] R C Hc Hpx Hpy.
  assert (Hn : ~ in_last x r arr p).
  { intros (R' & C' & HR & HC & Hc' & Hl). destruct Hc' as [I1 I2]. destruct Hl as [E|E]; rewrite <- E in *; lia. }
  destruct (HV Hn) as [(R' & C' & Hc' & Hg)|[_ Hout]].
  - pose proof (nd_get_Some_lt _ _ _ _ Hg) as [B1 B2]. destruct (X6 R' C' B1 B2) as (w & Hw & ->). rewrite Hg in Hw. injection Hw as ->.
    apply in_cell_floor in Hc, Hc'; try done. destruct Hc as [Q1 Q2], Hc' as [Q3 Q4]. rewrite Q1 in Q3. rewrite Q2 in Q4. apply Nat2Z.inj in Q3, Q4. by subst.
  - exfalso. apply (Hout R C); [| |done]; destruct Hc as [I1 I2]; apply Nat2Z.inj_lt; nia.
Qed.
(** The full statement, that the last row and column get the value of their cell too, is false. *)
Theorem C38_last_refuted :
  exists e size g ct r x a px py R C q, 0 < size /\ sr_clean e known_args size false false true g ct /\ m_rezs (g_meta g) = [r] /\
    m_ext (g_meta g) = Some x /\ g_get_layers_by_name sr_ops e g ["depth"] (Some r) None false = Ok (g, Some [a]) /\
    in_cell (x0 x) (y0 x) r R C px py /\ nd_get a R C = Some (Some q) /\
    g_layer_values_at_xy sr_ops e g [px] [py] "depth" None None = Ok (g, [None]).
Proof.
  pose (g := sr_run env_s sr_1 mean_4).
  pose (q := match g_get_layers_by_name sr_ops env_s g ["depth"] (Some 4) None false with Ok (_, Some [a]) => a | _ => nd_full 0 0 None end).
  exists env_s, 8, g, [("one", pts_one)], 4, (Ext 0 0 16 8), q, 13, 2, 0%nat, 3%nat, 20%Q. split; [done|]. split.
  { apply (CH_grid _ _ _ _ sr_1 [("one", pts_one)] mean_4 None); [|apply elem_of_list_here|by vm_compute].
    apply (CH_add _ _ _ _ (create_sr 8 false false true) [] pts_one (args_of "one")); [apply CH_new|by vm_compute]. }
  split; [by vm_compute|]. split; [by vm_compute|]. split; [by vm_compute|]. split; [unfold in_cell; cbn; lia|]. split; by vm_compute.
Qed.
Print Assumptions C38_values_partial.
Print Assumptions C38_sr_partial.
Print Assumptions C38_last_refuted.
Example C38_case : match g_layer_values_at_xy sr_ops env_s run_1 [9; -3; 100] [1; -7; 100] "depth" (Some 4) None with
  | Ok (_, vals) => vals = [Some 7%Q; Some 5%Q; None]
  | _ => False
  end.
Proof. by vm_compute. Qed.

(** ** C39 *)
(** With no resolution given, every location gets the value of the smallest resolution that has one there. *)
Theorem C39_finest {T} (O : tile_ops T) e g xs ys l (vals : Z -> list cell) :
  xs <> [] -> m_rezs (g_meta g) <> [] ->
  (forall r, r ∈ m_rezs (g_meta g) -> g_layer_values_at_xy O e g xs ys l (Some r) None = Ok (g, vals r)) ->
  exists out, g_layer_values_at_xy O e g xs ys l None None = Ok (g, out) /\ length out = length xs /\
    forall i v, out !! i = Some v -> finest (m_rezs (g_meta g)) (fun r => mjoin (vals r !! i)) v.
Proof. apply values_finest. Qed.
Print Assumptions C39_finest.
(** A tile with cells of 1 m and 2 m: the 1 m value where there is one, the 2 m value elsewhere. *)
Definition rezs_48 := sr_run env_s (sr_add two_rez [Point 13 3 60 1 1] "three") mean_4_up.
Example C39_case : m_rezs (g_meta rezs_48) = [4; 8] /\
  g_layer_values_at_xy sr_ops env_s rezs_48 [1; 5] [1; 1] "depth" (Some 4) None = Ok (rezs_48, [Some 10%Q; None]) /\
  g_layer_values_at_xy sr_ops env_s rezs_48 [1; 5] [1; 1] "depth" (Some 8) None = Ok (rezs_48, [Some 20%Q; Some 20%Q]) /\
  g_layer_values_at_xy sr_ops env_s rezs_48 [1; 5] [1; 1] "depth" None None = Ok (rezs_48, [Some 10%Q; Some 20%Q]).
Proof. split; [by vm_compute|]. split; [by vm_compute|]. split; by vm_compute. Qed.

(** ** C40 *)
(** Asking for a floating point layer with a nodata value gives what asking with NaN gives, with exactly
    the NaN entries replaced. *)
Theorem C40_sr_partial e size b zarr disk g ct l r v up g' o :
  0 < size -> sr_clean e known_args size b zarr disk g ct -> l ∈ float_layers ->
  g_get_layers_by_name sr_ops e g [l] (Some r) None up = Ok (g', o) ->
  exists o', g_get_layers_by_name sr_ops e g [l] (Some r) (Some v) up = Ok (g, o') /\ same_answers (filled (Some v)) o o'.
Proof.
  intros Hs H Hl Hq. apply (sr_sim e known_args size b zarr disk g ct l r None (Some v) up up (filled (Some v)) g' o Hs (fun _ h => h) H (float_std l Hl));
    [by rewrite !float_nodata|intros x; by apply filled_view|exact Hq].
Qed.
Theorem C40_vr_partial e size sub b zarr disk g ct l r v up g' o :
  0 < size -> 0 < sub -> vr_clean e known_args size sub b zarr disk g ct -> l ∈ float_layers ->
  g_get_layers_by_name vr_ops e g [l] (Some r) None up = Ok (g', o) ->
  exists o', g_get_layers_by_name vr_ops e g [l] (Some r) (Some v) up = Ok (g, o') /\ same_answers (filled (Some v)) o o'.
Proof.
  intros Hs Hsub H Hl Hq. apply (vr_sim e known_args size sub b zarr disk g ct l r None (Some v) up up (filled (Some v)) g' o Hs Hsub (fun _ h => h) H (float_std l Hl));
    [by rewrite !float_nodata|intros m x; by apply filled_view|exact Hq].
Qed.
(** Full statement for the layers of whole numbers: the same, with [l] in the layers of whole numbers. It
    is false: without a nodata value the density where there is no tile is 0, and with one it is that
    value, while it stays 0 in the empty cells of a tile. *)
Theorem C40_density_refuted :
  exists e size g ct r v o o' R C, 0 < size /\ sr_clean e known_args size false false true g ct /\
    g_get_layers_by_name sr_ops e g ["density"] (Some r) None false = Ok (g, Some [o]) /\
    g_get_layers_by_name sr_ops e g ["density"] (Some r) (Some v) false = Ok (g, Some [o']) /\
    nd_get o R C = Some (Some 0%Q) /\ nd_get o' R C = Some (Some v) /\ ~ (v == 0)%Q.
Proof.
  exists env_s, 8, run_1, ct_2, 4, (-9)%Q. 
  pose (q := fun v : cell => match g_get_layers_by_name sr_ops env_s run_1 ["density"] (Some 4) v false with Ok (_, Some [a]) => a | _ => nd_full 0 0 None end).
  exists (q None), (q (Some (-9)%Q)), 0%nat, 2%nat. split; [done|]. split.
  { apply (CH_grid _ _ _ _ sr_2 ct_2 mean_4 None); [apply sr_2_clean|apply elem_of_list_here|by vm_compute]. }
  split; [by vm_compute|]. split; [by vm_compute|]. split; [by vm_compute|]. split; [by vm_compute|]. done.
Qed.
Print Assumptions C40_sr_partial.
Print Assumptions C40_vr_partial.
Print Assumptions C40_density_refuted.
Example C40_case : sr_clean env_s known_args 8 false false true run_1 ct_2 /\ "depth" ∈ float_layers /\
  match g_get_layers_by_name sr_ops env_s run_1 ["depth"] (Some 4) (Some (-9)%Q) false with
  | Ok (_, Some [a]) => nd_get a 0 0 = Some (Some (-9)%Q) /\ nd_get a 0 1 = Some (Some 5%Q)
  | _ => False
  end.
Proof.
  split; [apply (CH_grid _ _ _ _ sr_2 ct_2 mean_4 None); [apply sr_2_clean|apply elem_of_list_here|by vm_compute]|].
  split; [apply elem_of_list_here|]. vm_compute. by repeat split.
Qed.

(** ** C41 *)
(** The depths of the two sign conventions are opposite; every other layer is the same in both. Which of
    the two has the sign of the soundings is said by C35 (the one of the grid's vertical reference). *)
Theorem C41_sr e size b zarr disk g ct l r up g' o :
  0 < size -> sr_clean e known_args size b zarr disk g ct -> l ∈ float_layers ++ int_layers ->
  g_get_layers_by_name sr_ops e g [l] (Some r) None up = Ok (g', o) ->
  exists o', g_get_layers_by_name sr_ops e g [l] (Some r) None (negb up) = Ok (g, o') /\
    same_answers (if bool_decide (l = "depth") then opposite else eq) o o'.
Proof.
  intros Hs H Hl Hq.
  apply (sr_sim e known_args size b zarr disk g ct l r None None up (negb up) _ g' o Hs (fun _ h => h) H Hl); [|intros x; rewrite eff_negb|exact Hq].
  - by case_bool_decide; subst.
  - destruct (decide (l = "depth")) as [->|Hd]; [apply opposite_view|]. rewrite (bool_decide_eq_false_2 (l = "depth")) by done. done.
Qed.
Theorem C41_vr e size sub b zarr disk g ct l r up g' o :
  0 < size -> 0 < sub -> vr_clean e known_args size sub b zarr disk g ct -> l ∈ float_layers ++ int_layers ->
  g_get_layers_by_name vr_ops e g [l] (Some r) None up = Ok (g', o) ->
  exists o', g_get_layers_by_name vr_ops e g [l] (Some r) None (negb up) = Ok (g, o') /\
    same_answers (if bool_decide (l = "depth") then opposite else eq) o o'.
Proof.
  intros Hs Hsub H Hl Hq.
  apply (vr_sim e known_args size sub b zarr disk g ct l r None None up (negb up) _ g' o Hs Hsub (fun _ h => h) H Hl); [|intros m x; rewrite !eff_negb|exact Hq].
  - by case_bool_decide; subst.
  - destruct (decide (l = "depth")) as [->|Hd]; [apply opposite_view|]. rewrite (bool_decide_eq_false_2 (l = "depth")) by done. done.
Qed.
Print Assumptions C41_sr.
Print Assumptions C41_vr.
(** A grid whose soundings are positive up. *)
Definition up_0 := st_of (g_add_points sr_ops (create_sr 8 false false true) (GoodData [Point 1 1 (-10) 1 1])
  (AddArgs "one" [] None (Some "AXIS[""ellipsoidal height (h)"",up]") None None "now")).
Definition up_1 := sr_run env_s up_0 mean_4.
Example C41_case : sr_clean env_s known_args 8 false false true up_1 [("one", [Point 1 1 (-10) 1 1])] /\ m_positive_up (g_meta up_1) = true /\
  match g_get_layers_by_name sr_ops env_s up_1 ["depth"] (Some 4) None false, g_get_layers_by_name sr_ops env_s up_1 ["depth"] (Some 4) None true with
  | Ok (_, Some [a]), Ok (_, Some [b]) => nd_get a 0 0 = Some (Some 10%Q) /\ nd_get b 0 0 = Some (Some (-10)%Q)
  | _, _ => False
  end.
Proof.
  split.
  { apply (CH_grid _ _ _ _ up_0 [("one", [Point 1 1 (-10) 1 1])] mean_4 None); [|apply elem_of_list_here|by vm_compute].
    apply (CH_add _ _ _ _ (create_sr 8 false false true) [] [Point 1 1 (-10) 1 1] (AddArgs "one" [] None (Some "AXIS[""ellipsoidal height (h)"",up]") None None "now"));
      [apply CH_new|by vm_compute]. }
  split; [by vm_compute|]. vm_compute. by repeat split.
Qed.
