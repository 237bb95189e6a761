(** CUBE on whole grids: C103, C104. *)
From Verif Require Import Py Nd Numpy Point Bin Algorithms Tile Meta Grid GridRun GridQuery GridOps Spec TileExec GridExec BorderSpec CubeSpec GridUnknownFacts GridCubeFacts Samples GridSamples Properties_Border.
Open Scope Z_scope.

Example count_shapes : engine_shapes env_count.
Proof. intros call. repeat constructor. Qed.

(** ** C103 *)
(** Each tile gets its own soundings, those of the neighbouring tiles within the strip along its border, each once, and the ones the
    caller passed; the resolution is the one given, or one of those recorded. *)
Theorem C103_sr_inputs e size b zarr disk g ct a dask : 0 < size -> sr_clean e known_args size b zarr disk g ct ->
  ga_alg a = "cube" -> (ga_regrid a = "update" -> ga_clear a = true) -> engine_shapes e -> exn_of (g_grid sr_ops e g a dask) = None ->
  let g' := st_of (g_grid sr_ops e g a dask) in
  forall k x y t, tile_at g' k = Some t -> origin_at g k = Some (x, y) ->
  exists r, (forall r0, ga_rez a = Some r0 -> r = r0) /\ r ∈ m_rezs (g_meta g') /\
    cube_reflects e (ga_params a) (border_points size x y (strip_width size dask (ga_rez a)) (all_points ct) ++ default [] (ga_border a))
      r x y size b (filter (fun p => in_square x y size (px p) (py p)) (all_points ct)) t.
Proof. intros Hs H. by apply (sr_cube e known_args size b zarr disk). Qed.
Print Assumptions C103_sr_inputs.
(** A tile of side 8 with one sounding; its neighbour has one on the common edge and one 4 from it. The counting engine saw 2. *)
Example cube_2_clean : sr_clean env_count known_args 8 false false false cube_2 [("one", [Point 1 1 10 1 1; Point 12 4 20 1 1]); ("two", [Point 8 4 30 1 1])].
Proof.
  apply (CH_add _ _ _ _ cube_1 [("one", [Point 1 1 10 1 1; Point 12 4 20 1 1])] [Point 8 4 30 1 1] (args_of "two")); [|by vm_compute].
  apply (CH_grid _ _ _ _ cube_0 _ (grid_args "cube" 4 false "full") None); [|right; right; left|by vm_compute].
  apply (CH_add _ _ _ _ (create_sr 8 false false false) [] [Point 1 1 10 1 1; Point 12 4 20 1 1] (args_of "one")); [apply CH_new|by vm_compute].
Qed.
Example C103_case : exists t, tile_at (st_of (g_grid sr_ops env_count cube_2 cube_4 None)) 0 = Some t /\
  exn_of (g_grid sr_ops env_count cube_2 cube_4 None) = None /\ origin_at cube_2 0 = Some (0, 0) /\
  strip_width 8 None (Some 4) = (8 # 10)%Q /\ strip_width 80 (Some 2%nat) (Some 2) = 6%Q /\
  border_points 8 0 0 (8 # 10) [Point 1 1 10 1 1; Point 12 4 20 1 1; Point 8 4 30 1 1] = [Point 8 4 30 1 1] /\
  layer_of t 4 "depth" = Some (Nd 2 2 [Some 2; Some 2; Some 2; Some 2])%Q.
Proof. eexists. split; [vm_compute; reflexivity|]. vm_compute. repeat split. Qed.

(** ** C104 *)
Lemma both_le (P Q : point -> Prop) `{forall p, Decision (P p), forall p, Decision (Q p)} (l : list point) :
  (length (filter (fun p => P p /\ Q p) l) <= length (filter P l))%nat.
Proof. induction l as [|p l IH]; [done|]. rewrite !filter_cons. destruct (decide (P p /\ Q p)) as [[? ?]|?], (decide (P p)); cbn; tauto || lia. Qed.
(** Soundings that are not within any strip of the adjacent sub-tiles are used: sub-tile (0, 0) of side 8 has two adjacent sub-tiles
    with one sounding each, but its layers are what the engine returns for its own sounding and four others. *)
Theorem C104_vr_inputs_refuted : exists e size sub b zarr disk g ct a k x y sg j u v t r,
  0 < sub /\ size mod sub = 0 /\ vr_clean e known_args size sub b zarr disk g ct /\ ga_alg a = "cube" /\ ga_rez a = Some r /\ ga_regrid a = "full" /\
  ga_border a = None /\ engine_shapes e /\ exn_of (g_grid vr_ops e g a None) = None /\
  tile_at (st_of (g_grid vr_ops e g a None)) k = Some sg /\ origin_at g k = Some (x, y) /\ tile_at sg j = Some t /\ origin_at sg j = Some (u, v) /\
  forall q o, o ≡ₚ border_points sub u v q (all_points ct) ->
    ~ cube_reflects e (ga_params a) o r u v sub false (filter (fun p => in_square u v sub (px p) (py p)) (all_points ct)) t.
Proof.
  destruct (tile_at (st_of (g_grid vr_ops env_count full_1 cube_4 None)) 0) as [sg|] eqn:Hsg; [|vm_compute in Hsg; discriminate].
  destruct (tile_at sg 0) as [t|] eqn:Ht; [|vm_compute in Hsg; injection Hsg as <-; vm_compute in Ht; discriminate].
  exists env_count, 16, 8, false, false, true, full_1, [("one", pts_full)], cube_4, 0%nat, 0, 0, sg, 0%nat, 0, 0, t, 4.
  split; [lia|]. split; [done|]. split; [apply full_1_clean|]. split; [done|]. split; [done|]. split; [done|]. split; [done|]. split; [apply count_shapes|].
  split; [vm_compute; reflexivity|]. split; [exact Hsg|]. split; [vm_compute; reflexivity|]. split; [exact Ht|].
  vm_compute in Hsg. injection Hsg as <-. vm_compute in Ht. injection Ht as <-. split; [vm_compute; reflexivity|].
  intros q o Ho (n & depth & density & unc & hyp & ratio & _ & Hn & H). cbv zeta in H. destruct H as (L1 & _ & _ & _ & _ & L2 & _).
  vm_compute in L1. injection L1 as <-. destruct L2 as (N1 & _ & _ & L2). cbn in N1. subst n.
  destruct (L2 0%nat 0%nat ltac:(lia) ltac:(lia)) as (v & Hv & L3). vm_compute in Hv. injection Hv as <-.
  assert (Hlen : (length o <= 2)%nat).
  { rewrite Ho. unfold border_points. change (all_points [("one", pts_full)]) with pts_full. rewrite !app_length.
    pose proof (both_le (fun p => in_square 0 (0 - 8) 8 (px p) (py p)) (fun p => Qle_bool (inject_Z (0 - py p)) q = true) pts_full) as B1.
    pose proof (both_le (fun p => in_square (0 + 8) 0 8 (px p) (py p)) (fun p => Qle_bool (inject_Z (px p - (0 + 8))) q = true) pts_full) as B2.
    pose proof (both_le (fun p => in_square 0 (0 + 8) 8 (px p) (py p)) (fun p => Qle_bool (inject_Z (py p - (0 + 8))) q = true) pts_full) as B3.
    pose proof (both_le (fun p => in_square (0 - 8) 0 8 (px p) (py p)) (fun p => Qle_bool (inject_Z (0 - px p)) q = true) pts_full) as B4.
    eapply Nat.le_trans; [apply Nat.add_le_mono; [exact B1|apply Nat.add_le_mono; [exact B2|apply Nat.add_le_mono; [exact B3|exact B4]]]|].
    apply Nat.leb_le. vm_compute. reflexivity. }
  destruct o as [|p1 [|p2 [|p3 o]]]; [| | |cbn in Hlen; lia]; cbn in L3; destruct L3 as (w & (m & _ & L3 & _) & E); injection E as <-; vm_compute in L3; apply L3; reflexivity.
Qed.
Print Assumptions C104_vr_inputs_refuted.
(** What is used: with the border of the sub-tile, the soundings of the same tile; beyond the tile, those near the corresponding side of
    their own sub-tile, for every sub-tile of the tile. *)
Theorem C104_vr_inputs_partial e size sub b zarr disk g ct a dask : 0 < size -> 0 < sub -> vr_clean e known_args size sub b zarr disk g ct ->
  ga_alg a = "cube" -> (ga_regrid a = "update" -> ga_clear a = true) -> engine_shapes e -> exn_of (g_grid vr_ops e g a dask) = None ->
  let g' := st_of (g_grid vr_ops e g a dask) in
  forall k x y sg j u v t, tile_at g' k = Some sg -> origin_at g k = Some (x, y) -> tile_at sg j = Some t -> origin_at sg j = Some (u, v) ->
  let tile_points := filter (fun p => in_square x y size (px p) (py p)) (all_points ct) in
  exists r o, (forall r0, ga_rez a = Some r0 -> r = r0) /\ r ∈ m_rezs (g_meta g') /\
    o ≡ₚ sub_border_points size sub x y (strip_width size dask (ga_rez a)) (all_points ct) /\
    cube_reflects e (ga_params a) (border_points sub u v (sub # 10) tile_points ++ o ++ default [] (ga_border a))
      r u v sub false (filter (fun p => in_square u v sub (px p) (py p)) tile_points) t.
Proof. intros Hs Hsub H. by apply (vr_cube e known_args size sub b zarr disk). Qed.
Print Assumptions C104_vr_inputs_partial.
(** Every sub-tile of the left tile of side 16 is gridded with all four soundings of the right tile. *)
Example C104_case : exists sg t, tile_at (st_of (g_grid vr_ops env_count full_1 cube_4 None)) 0 = Some sg /\ tile_at sg 0 = Some t /\
  exn_of (g_grid vr_ops env_count full_1 cube_4 None) = None /\ origin_at full_1 0 = Some (0, 0) /\ origin_at sg 0 = Some (0, 0) /\
  sub_border_points 16 8 0 0 (16 # 10) pts_full = [Point 17 1 50 1 1; Point 25 1 60 1 1; Point 17 9 70 1 1; Point 25 9 80 1 1] /\
  border_points 8 0 0 (8 # 10) (filter (fun p => in_square 0 0 16 (px p) (py p)) pts_full) = [] /\
  layer_of t 4 "depth" = Some (Nd 2 2 [Some 5; Some 5; Some 5; Some 5])%Q.
Proof. eexists _, _. split; [vm_compute; reflexivity|]. split; [vm_compute; reflexivity|]. vm_compute. repeat split. Qed.
