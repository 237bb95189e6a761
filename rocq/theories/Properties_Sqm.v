(** Soundings per square metre: C115. *)
From Coq Require Import Lqa.
From Verif Require Import Py Nd Numpy Point Bin Algorithms Tile Time Meta Disk Grid GridRun GridQuery GridOps Views
  Spec TileExec GridExec ViewsSpec Samples GridSamples PyFacts GridBaseFacts GridSrFacts GridPropFacts GridUpdateFacts GridDensityFacts SqmFacts Properties_GridState.
Open Scope Z_scope.

(** ** C115 *)
(** The densities times the area of a cell are the counts, and sum to the number of soundings. *)
Theorem C115_sum e size b zarr disk g ct a dask r :
  0 < size -> sr_clean e known_args size b zarr disk g ct -> known_args a -> ga_rez a = Some r -> ga_clear a = true ->
  exn_of (g_grid sr_ops e g a dask) = None ->
  let g' := st_of (g_grid sr_ops e g a dask) in
  exists l n, g_density_per_square_meter sr_ops e g' = Ok l /\ g_density_count sr_ops g' = Ok n /\
    Forall2 (fun q k => (q * (metres e r * metres e r) == k)%Q) l n /\
    (ct <> [] -> (sumQ l * (metres e r * metres e r) == numQ (length (all_points ct)))%Q).
Proof.
  intros Hs H HA Hr Hc Hx g'. destruct (C20_sr_density e size b zarr disk g ct a dask r Hs H HA Hr Hc Hx) as (n & Hn & Hsum & _). fold g' in Hn.
  pose proof (sr_counted e known_args size b zarr disk g ct a dask r Hs (fun _ h => h) H HA Hr Hx (or_introl Hc)) as HC. fold g' in HC.
  pose proof Hn as Hn'. unfold g_density_count in Hn'. cbn [sr_ops op_density_count] in Hn'. apply rbind_Ok in Hn' as (ls & Hls & [= <-]).
  assert (HC' : forall t, t ∈ live_tiles g' -> counted r t). { intros t (k & Ht)%live_tile_at. by eapply HC. }
  set (c := (metres e r * metres e r)%Q).
  exists (map (fun q => q / c)%Q (concat ls)), (concat ls). unfold g_density_per_square_meter. cbn [sr_ops op_density_sqm].
  rewrite (counted_sqm_all e r _ _ HC' Hls). cbn [rbind]. split; [by rewrite concat_map|]. split; [done|].
  assert (Hpos : live_tiles g' <> [] -> ~ (c == 0)%Q).
  { intros Hne. destruct (live_tiles g') as [|t ts] eqn:E; [done|]. destruct (HC' t) as [Hr' _]; [left|]. pose proof (metres_pos e r Hr').
    intros E0. assert (0 < c)%Q; [|lra]. by apply Qmult_lt_0_compat. }
  destruct (live_tiles g') as [|t ts] eqn:El.
  - cbn in Hls. injection Hls as <-. split; [apply Forall2_nil; done|]. intros _. cbn in *. rewrite <- Hsum. unfold c. lra.
  - specialize (Hpos ltac:(done)). split.
    + apply Forall2_fmap_l, Forall_Forall2_diag, Forall_forall. intros q _. cbn. field. done.
    + intros _. rewrite sumQ_div by done. exact Hsum.
Qed.
(** They are the densities that density_per_square_meter_vs_depth (C79) pairs with depths, in the same order. *)
Theorem C115_same_sr e (g : sr_grid) dz : g_vs_depth (t_density_sqm_vs_depth e) g = Ok dz -> g_density_per_square_meter sr_ops e g = Ok dz.1.
Proof. apply (grid_first sr_ops). apply tile_sqm_first. Qed.
Theorem C115_same_vr e (g : vr_grid) dz : g_vs_depth (g_vs_depth (t_density_sqm_vs_depth e)) g = Ok dz -> g_density_per_square_meter vr_ops e g = Ok dz.1.
Proof. apply (grid_first vr_ops). intros sg dz'. apply (grid_first sr_ops). apply tile_sqm_first. Qed.
(** Cells of one square metre, and of four. *)
Example C115_case : (metres env_s 4 == 1)%Q /\ (metres env_s 8 == 2)%Q /\
  match g_density_per_square_meter sr_ops env_s (sr_run env_s run_2 mean_4) with Ok l => Forall2 Qeq l [2; 1; 1; 1; 1]%Q | _ => False end /\
  match g_density_per_square_meter sr_ops env_s (sr_run env_s sr_2 (grid_args "mean" 8 true "full")) with Ok l => Forall2 Qeq l [1 # 4; 1 # 2; 1 # 2]%Q | _ => False end.
Proof. vm_compute. repeat split; repeat constructor. Qed.
Print Assumptions C115_sum.
Print Assumptions C115_same_sr.
Print Assumptions C115_same_vr.
