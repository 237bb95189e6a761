(** The area covered by grids and the squares with soundings: C139. *)
From Coq Require Import Lqa.
From Verif Require Import Py Nd Numpy Point Bin Algorithms Tile Time Meta Disk Grid GridRun GridQuery GridOps Export
  Spec TileExec GridExec WholeSpec SameSpec SquaresSpec Samples GridSamples PyFacts GridBaseFacts GridPropFacts GridUpdateFacts GridContainerFacts GridCountFacts SqmFacts SquaresFacts CoverFacts VrCoverFacts
  Properties_GridCount Properties_Whole.
Open Scope Z_scope.

(** ** C139 *)
(** coverage_area after gridding with clear_existing is the area of the squares with soundings, within 0.0005 square metres for
    each tile, and exactly if the area of a cell is a whole number of thousandths of a square metre (so for resolutions from half
    a metre). density_count has one entry for each of these squares. *)
Theorem C139_area e alg r size zarr disk g ct a dask :
  alg = "mean" \/ alg = "shoalest" -> 0 < r -> ct <> [] -> 0 < size -> size mod r = 0 -> sr_clean e known_args size false zarr disk g ct ->
  only_args alg r a -> ga_clear a = true -> exn_of (g_grid sr_ops e g a dask) = None ->
  let g' := st_of (g_grid sr_ops e g a dask) in
  let n := length (squares r (all_points ct)) in
  exists q l, g_coverage_area sr_ops e g' = Ok q /\ g_density_count sr_ops g' = Ok l /\ length l = n /\
    (Qabs (q - numQ n * (metres e r * metres e r)) <= numQ (length (live_tiles g')) * (1 # 2000))%Q /\
    ((exists k, metres e r * metres e r * 1000 == inject_Z k)%Q -> (q == numQ n * (metres e r * metres e r))%Q).
Proof. apply sr_cover. Qed.
(** So two grids of the same soundings cover the same area, whatever their tile sizes and histories. *)
Theorem C139_same e alg1 alg2 r size1 size2 zarr1 zarr2 disk1 disk2 g1 g2 ct1 ct2 a1 a2 dask1 dask2 k :
  alg1 = "mean" \/ alg1 = "shoalest" -> alg2 = "mean" \/ alg2 = "shoalest" -> 0 < r -> (metres e r * metres e r * 1000 == inject_Z k)%Q ->
  ct1 <> [] -> ct2 <> [] -> all_points ct1 ≡ₚ all_points ct2 -> 0 < size1 -> 0 < size2 -> size1 mod r = 0 -> size2 mod r = 0 ->
  sr_clean e known_args size1 false zarr1 disk1 g1 ct1 -> sr_clean e known_args size2 false zarr2 disk2 g2 ct2 ->
  only_args alg1 r a1 -> only_args alg2 r a2 -> ga_clear a1 = true -> ga_clear a2 = true ->
  exn_of (g_grid sr_ops e g1 a1 dask1) = None -> exn_of (g_grid sr_ops e g2 a2 dask2) = None ->
  exists q1 q2, g_coverage_area sr_ops e (st_of (g_grid sr_ops e g1 a1 dask1)) = Ok q1 /\ g_coverage_area sr_ops e (st_of (g_grid sr_ops e g2 a2 dask2)) = Ok q2 /\ (q1 == q2)%Q.
Proof.
  intros A1 A2 Hr Hk N1 N2 Hp S1 S2 M1 M2 H1 H2 O1 O2 C1 C2 X1 X2.
  destruct (C139_area e alg1 r size1 zarr1 disk1 g1 ct1 a1 dask1 A1 Hr N1 S1 M1 H1 O1 C1 X1) as (q1 & _ & E1 & _ & _ & _ & Q1).
  destruct (C139_area e alg2 r size2 zarr2 disk2 g2 ct2 a2 dask2 A2 Hr N2 S2 M2 H2 O2 C2 X2) as (q2 & _ & E2 & _ & _ & _ & Q2).
  exists q1, q2. split; [exact E1|]. split; [exact E2|]. rewrite Q1, Q2 by (by exists k). by rewrite (squares_perm r _ _ Hp).
Qed.
Print Assumptions C139_area.
Print Assumptions C139_same.

(** Five cells of one square metre, and three of four square metres. *)
Example C139_case :
  sr_clean env_s known_args 8 false false true sr_2 ct_2 /\ (metres env_s 4 == 1)%Q /\ (metres env_s 8 == 2)%Q /\
  exn_of (g_grid sr_ops env_s sr_2 (grid_args "mean" 4 true "full") None) = None /\
  g_coverage_area sr_ops env_s (st_of (g_grid sr_ops env_s sr_2 (grid_args "mean" 4 true "full") None)) = Ok 5%Q /\
  g_coverage_area sr_ops env_s (st_of (g_grid sr_ops env_s sr_2 (grid_args "mean" 8 true "full") None)) = Ok 12%Q /\
  length (squares 4 (all_points ct_2)) = 5%nat /\ length (squares 8 (all_points ct_2)) = 3%nat.
Proof.
  split; [apply sr_2_clean|]. split; [reflexivity|]. split; [reflexivity|]. split; [vm_compute; reflexivity|]. split; [vm_compute; reflexivity|].
  split; [vm_compute; reflexivity|]. split; vm_compute; reflexivity.
Qed.

(** ** Variable resolution grids *)
Theorem C139_area_vr e alg r size sub zarr disk g ct a dask :
  alg = "mean" \/ alg = "shoalest" -> 0 < r -> ct <> [] -> 0 < size -> 0 < sub -> size mod sub = 0 -> sub mod r = 0 ->
  vr_clean e known_args size sub false zarr disk g ct -> only_args alg r a -> ga_clear a = true -> exn_of (g_grid vr_ops e g a dask) = None ->
  let g' := st_of (g_grid vr_ops e g a dask) in
  let n := length (squares r (all_points ct)) in
  exists q l, g_coverage_area vr_ops e g' = Ok q /\ g_density_count vr_ops g' = Ok l /\ length l = n /\
    (Qabs (q - numQ n * (metres e r * metres e r)) <= numQ (length (vr_tiles g')) * (1 # 2000))%Q /\
    ((exists k, metres e r * metres e r * 1000 == inject_Z k)%Q -> (q == numQ n * (metres e r * metres e r))%Q).
Proof. apply vr_cover. Qed.
(** A single and a variable resolution grid of the same soundings cover the same area. *)
Theorem C139_same_kinds e alg1 alg2 r size1 size2 sub2 zarr1 zarr2 disk1 disk2 g1 g2 ct1 ct2 a1 a2 dask1 dask2 k :
  alg1 = "mean" \/ alg1 = "shoalest" -> alg2 = "mean" \/ alg2 = "shoalest" -> 0 < r -> (metres e r * metres e r * 1000 == inject_Z k)%Q ->
  ct1 <> [] -> ct2 <> [] -> all_points ct1 ≡ₚ all_points ct2 -> 0 < size1 -> 0 < size2 -> 0 < sub2 -> size1 mod r = 0 -> size2 mod sub2 = 0 -> sub2 mod r = 0 ->
  sr_clean e known_args size1 false zarr1 disk1 g1 ct1 -> vr_clean e known_args size2 sub2 false zarr2 disk2 g2 ct2 ->
  only_args alg1 r a1 -> only_args alg2 r a2 -> ga_clear a1 = true -> ga_clear a2 = true ->
  exn_of (g_grid sr_ops e g1 a1 dask1) = None -> exn_of (g_grid vr_ops e g2 a2 dask2) = None ->
  exists q1 q2, g_coverage_area sr_ops e (st_of (g_grid sr_ops e g1 a1 dask1)) = Ok q1 /\ g_coverage_area vr_ops e (st_of (g_grid vr_ops e g2 a2 dask2)) = Ok q2 /\ (q1 == q2)%Q.
Proof.
  intros A1 A2 Hr Hk N1 N2 Hp S1 S2 S3 M1 M2 M3 H1 H2 O1 O2 C1 C2 X1 X2.
  destruct (C139_area e alg1 r size1 zarr1 disk1 g1 ct1 a1 dask1 A1 Hr N1 S1 M1 H1 O1 C1 X1) as (q1 & _ & E1 & _ & _ & _ & Q1).
  destruct (C139_area_vr e alg2 r size2 sub2 zarr2 disk2 g2 ct2 a2 dask2 A2 Hr N2 S2 S3 M2 M3 H2 O2 C2 X2) as (q2 & _ & E2 & _ & _ & _ & Q2).
  exists q1, q2. split; [exact E1|]. split; [exact E2|]. rewrite Q1, Q2 by (by exists k). by rewrite (squares_perm r _ _ Hp).
Qed.
Print Assumptions C139_area_vr.
Print Assumptions C139_same_kinds.

Example C139_case_vr :
  vr_clean env_s known_args 16 8 false false true wide_2 ct_2 /\ exn_of (g_grid vr_ops env_s wide_2 (grid_args "mean" 4 true "full") None) = None /\
  g_coverage_area vr_ops env_s (st_of (g_grid vr_ops env_s wide_2 (grid_args "mean" 4 true "full") None)) = Ok 5%Q /\
  g_coverage_area vr_ops env_s (st_of (g_grid vr_ops env_s wide_2 (grid_args "mean" 8 true "full") None)) = Ok 12%Q.
Proof. split; [apply wide_2_clean|]. split; [vm_compute; reflexivity|]. split; vm_compute; reflexivity. Qed.

(** ** Resolutions *)
(** Grids of either kind just gridded with clear_existing. *)
Inductive cleared (e : env) (alg : string) (r : Z) (ct : content) : forall T, tile_ops T -> grid T -> Prop :=
  | Cleared_sr size zarr disk g a dask : 0 < size -> size mod r = 0 -> sr_clean e known_args size false zarr disk g ct ->
      only_args alg r a -> ga_clear a = true -> exn_of (g_grid sr_ops e g a dask) = None -> cleared e alg r ct tile sr_ops (st_of (g_grid sr_ops e g a dask))
  | Cleared_vr size sub zarr disk g a dask : 0 < size -> 0 < sub -> size mod sub = 0 -> sub mod r = 0 -> vr_clean e known_args size sub false zarr disk g ct ->
      only_args alg r a -> ga_clear a = true -> exn_of (g_grid vr_ops e g a dask) = None -> cleared e alg r ct sr_grid vr_ops (st_of (g_grid vr_ops e g a dask)).
Lemma cleared_area e alg r ct T (O : tile_ops T) g : alg = "mean" \/ alg = "shoalest" -> 0 < r -> ct <> [] -> cleared e alg r ct T O g ->
  (exists k, metres e r * metres e r * 1000 == inject_Z k)%Q -> exists q, g_coverage_area O e g = Ok q /\ (q == numQ (length (squares r (all_points ct))) * (metres e r * metres e r))%Q.
Proof.
  intros A Hr N [size zarr disk g0 a dask S M H Ho C X|size sub zarr disk g0 a dask S S' M M' H Ho C X] Hk.
  - destruct (C139_area e alg r size zarr disk g0 ct a dask A Hr N S M H Ho C X) as (q & _ & E & _ & _ & _ & Q). exists q. split; [exact E|exact (Q Hk)].
  - destruct (C139_area_vr e alg r size sub zarr disk g0 ct a dask A Hr N S S' M M' H Ho C X) as (q & _ & E & _ & _ & _ & Q). exists q. split; [exact E|exact (Q Hk)].
Qed.
Lemma metres_times e (k : nat) r : (metres e (Z.of_nat k * r) == numQ k * metres e r)%Q.
Proof. unfold metres, numQ, inject_Z, Qeq, Qmult. cbn. lia. Qed.
Lemma numQ_le a b : (a <= b)%nat -> (numQ a <= numQ b)%Q.
Proof. intros H. unfold numQ. rewrite <- Zle_Qle. lia. Qed.
Lemma numQ_mul a b : (numQ (a * b) == numQ a * numQ b)%Q.
Proof. unfold numQ. by rewrite Nat2Z.inj_mul, inject_Z_mult. Qed.
(** With cells k times as wide the same soundings cover at least the same area, and at most k*k times that area. *)
Theorem C139_coarse e alg1 alg2 r k ct1 ct2 T1 (O1 : tile_ops T1) g1 T2 (O2 : tile_ops T2) g2 :
  alg1 = "mean" \/ alg1 = "shoalest" -> alg2 = "mean" \/ alg2 = "shoalest" -> 0 < r -> (0 < k)%nat -> (exists m, metres e r * metres e r * 1000 == inject_Z m)%Q ->
  ct1 <> [] -> ct2 <> [] -> all_points ct1 ≡ₚ all_points ct2 -> cleared e alg1 r ct1 T1 O1 g1 -> cleared e alg2 (Z.of_nat k * r) ct2 T2 O2 g2 ->
  exists q1 q2, g_coverage_area O1 e g1 = Ok q1 /\ g_coverage_area O2 e g2 = Ok q2 /\ (q1 <= q2 /\ q2 <= numQ (k * k) * q1)%Q.
Proof.
  intros A1 A2 Hr Hk [m Hm] N1 N2 Hp G1 G2. assert (Hkr : 0 < Z.of_nat k * r) by (apply Z.mul_pos_pos; lia).
  destruct (cleared_area e alg1 r ct1 T1 O1 g1 A1 Hr N1 G1 (ex_intro _ m Hm)) as (q1 & E1 & Q1).
  destruct (cleared_area e alg2 _ ct2 T2 O2 g2 A2 Hkr N2 G2) as (q2 & E2 & Q2).
  { exists (Z.of_nat (k * k) * m). rewrite metres_times, inject_Z_mult, <- Hm. fold (numQ (k * k)). rewrite numQ_mul. ring. }
  exists q1, q2. split; [exact E1|]. split; [exact E2|]. rewrite Q1, Q2, metres_times, <- (squares_perm _ _ _ Hp).
  destruct (squares_coarse r k (all_points ct1) Hr Hk) as [B1 B2]. apply numQ_le in B1, B2. rewrite numQ_mul in B2. rewrite !numQ_mul in *.
  set (n1 := numQ (length (squares r _))) in *. set (n2 := numQ (length (squares (Z.of_nat k * r) (all_points ct1)))) in *. set (c := (metres e r * metres e r)%Q). set (kk := (numQ k * numQ k)%Q) in *.
  assert (Hc : (0 <= c)%Q) by (unfold c, metres, Qle, Qmult; cbn; nia).
  assert (Hkk : (0 <= kk)%Q) by (unfold kk; rewrite <- numQ_mul; apply (numQ_le 0); lia).
  assert (E : (n2 * (numQ k * metres e r * (numQ k * metres e r)) == n2 * kk * c)%Q) by (unfold kk, c; ring). rewrite E. split.
  - apply Qmult_le_compat_r; done.
  - assert (E' : (kk * (n1 * c) == n1 * kk * c)%Q) by ring. rewrite E'. apply Qmult_le_compat_r; [|done]. by apply Qmult_le_compat_r.
Qed.
Print Assumptions C139_coarse.

(** The five square metres of C139_case with resolution 4 and the twelve with resolution 8. *)
Example C139_case_coarse :
  cleared env_s "mean" 4 ct_2 tile sr_ops (st_of (g_grid sr_ops env_s sr_2 (grid_args "mean" 4 true "full") None)) /\
  cleared env_s "mean" 8 ct_2 sr_grid vr_ops (st_of (g_grid vr_ops env_s wide_2 (grid_args "mean" 8 true "full") None)) /\ (5 <= 12 /\ 12 <= numQ (2 * 2) * 5)%Q.
Proof.
  split; [apply (Cleared_sr _ _ _ _ 8 false true); [lia|reflexivity|apply sr_2_clean|split; reflexivity|reflexivity|vm_compute; reflexivity]|].
  split; [apply (Cleared_vr _ _ _ _ 16 8 false true); [lia|lia|reflexivity|reflexivity|apply wide_2_clean|split; reflexivity|reflexivity|vm_compute; reflexivity]|].
  split; discriminate.
Qed.
