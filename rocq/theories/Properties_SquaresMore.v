(** The cells of grids with more soundings: C141. *)
From Verif Require Import Py Nd Numpy Point Bin Algorithms Tile Time Meta Disk Grid GridRun GridQuery GridOps Export
  Spec TileExec GridExec WholeSpec SameSpec SquaresSpec Samples GridSamples SquaresFacts Properties_GridCount Properties_Whole Properties_Squares Properties_Cover.
Open Scope Z_scope.

Lemma squares_mono r d d' : d ⊆ d' -> (length (squares r d) <= length (squares r d'))%nat.
Proof. intros H. apply submseteq_length, NoDup_submseteq; [apply squares_nodup|]. intros s. rewrite !squares_elem. intros (p & Hp & E). exists p. by split; [apply H|]. Qed.
Lemma squares_union r d d1 d2 : (forall p, p ∈ d -> p ∈ d1 \/ p ∈ d2) -> (length (squares r d) <= length (squares r d1) + length (squares r d2))%nat.
Proof.
  intros H. rewrite <- app_length. apply submseteq_length, NoDup_submseteq; [apply squares_nodup|]. intros s. rewrite elem_of_app, !squares_elem. intros (p & Hp & E).
  destruct (H p Hp); [left|right]; by exists p.
Qed.
Lemma squares_points r d : (length (squares r d) <= length d)%nat.
Proof.
  rewrite <- (map_length (sq r) d). apply submseteq_length, NoDup_submseteq; [apply squares_nodup|]. intros s (p & Hp & ->)%squares_elem. by apply elem_of_list_fmap_1.
Qed.

Lemma metres_square e r : (0 <= metres e r * metres e r)%Q.
Proof. unfold metres, Qle, Qmult. cbn. nia. Qed.
Lemma numQ_add a b : (numQ (a + b) == numQ a + numQ b)%Q.
Proof. unfold numQ. by rewrite Nat2Z.inj_add, inject_Z_plus. Qed.

(** ** C141 *)
(** A grid whose soundings include those of another one has at least as many cells. *)
Theorem C141_more e alg1 alg2 r ct1 ct2 T1 (O1 : tile_ops T1) g1 T2 (O2 : tile_ops T2) g2 :
  alg1 = "mean" \/ alg1 = "shoalest" -> alg2 = "mean" \/ alg2 = "shoalest" -> 0 < r -> ct1 <> [] -> ct2 <> [] -> all_points ct1 ⊆ all_points ct2 ->
  gridded e alg1 r ct1 T1 O1 g1 -> gridded e alg2 r ct2 T2 O2 g2 ->
  exists d1 d2, g_cell_count O1 g1 = Ok d1 /\ g_cell_count O2 g2 = Ok d2 /\ (default 0 (dget d1 r) <= default 0 (dget d2 r))%nat.
Proof.
  intros A1 A2 Hr N1 N2 Hp G1 G2. destruct (C137_count e alg1 r ct1 T1 O1 g1 A1 Hr N1 G1) as (d1 & H1 & E1), (C137_count e alg2 r ct2 T2 O2 g2 A2 Hr N2 G2) as (d2 & H2 & E2).
  exists d1, d2. split; [exact H1|]. split; [exact H2|]. rewrite E1, E2. by apply squares_mono.
Qed.
(** The grid of two surveys has no more cells than the grids of each together, and every grid no more cells than soundings. *)
Theorem C141_union e alg alg1 alg2 r ct ct1 ct2 T (O : tile_ops T) g T1 (O1 : tile_ops T1) g1 T2 (O2 : tile_ops T2) g2 :
  alg = "mean" \/ alg = "shoalest" -> alg1 = "mean" \/ alg1 = "shoalest" -> alg2 = "mean" \/ alg2 = "shoalest" -> 0 < r -> ct <> [] -> ct1 <> [] -> ct2 <> [] ->
  all_points ct ≡ₚ all_points ct1 ++ all_points ct2 -> gridded e alg r ct T O g -> gridded e alg1 r ct1 T1 O1 g1 -> gridded e alg2 r ct2 T2 O2 g2 ->
  exists d d1 d2, g_cell_count O g = Ok d /\ g_cell_count O1 g1 = Ok d1 /\ g_cell_count O2 g2 = Ok d2 /\
    (default 0 (dget d r) <= default 0 (dget d1 r) + default 0 (dget d2 r))%nat /\ (default 0 (dget d1 r) <= default 0 (dget d r))%nat /\ (default 0 (dget d2 r) <= default 0 (dget d r))%nat.
Proof.
  intros A A1 A2 Hr N N1 N2 Hp G G1 G2. destruct (C137_count e alg r ct T O g A Hr N G) as (d & H & E).
  destruct (C137_count e alg1 r ct1 T1 O1 g1 A1 Hr N1 G1) as (d1 & H1 & E1), (C137_count e alg2 r ct2 T2 O2 g2 A2 Hr N2 G2) as (d2 & H2 & E2).
  exists d, d1, d2. split; [exact H|]. split; [exact H1|]. split; [exact H2|]. rewrite E, E1, E2. split; [|split].
  - apply squares_union. intros p. rewrite Hp. by rewrite elem_of_app.
  - apply squares_mono. intros p. rewrite Hp, elem_of_app. tauto.
  - apply squares_mono. intros p. rewrite Hp, elem_of_app. tauto.
Qed.
Theorem C141_points e alg r ct T (O : tile_ops T) g :
  alg = "mean" \/ alg = "shoalest" -> 0 < r -> ct <> [] -> gridded e alg r ct T O g ->
  exists d, g_cell_count O g = Ok d /\ (default 0 (dget d r) <= length (all_points ct))%nat.
Proof. intros A Hr N G. destruct (C137_count e alg r ct T O g A Hr N G) as (d & H & E). exists d. split; [exact H|]. rewrite E. apply squares_points. Qed.
Print Assumptions C141_more.
Print Assumptions C141_union.
Print Assumptions C141_points.

(** One survey has soundings in three squares of side 4, the other in two, together five; with side 8 two, two and together three. *)
Example C141_case : map (fun r => map (fun d => length (squares r d)) [pts_one; pts_two; all_points ct_2]) [4; 8] = [[3; 2; 5]; [2; 2; 3]]%nat /\
  gridded env_s "mean" 8 ct_2 tile sr_ops (st_of (g_grid sr_ops env_s sr_2 mean_8 None)) /\
  g_cell_count sr_ops (st_of (g_grid sr_ops env_s sr_1 mean_8 None)) = Ok [(8, 2%nat)] /\ g_cell_count sr_ops (st_of (g_grid sr_ops env_s sr_2 mean_8 None)) = Ok [(8, 3%nat)].
Proof. split; [vm_compute; reflexivity|]. split; [apply C137_case|]. split; vm_compute; reflexivity. Qed.

(** ** Areas *)
(** Nor does a grid with more soundings cover a smaller area; the grid of two surveys covers at most both areas together. *)
Theorem C141_area e alg1 alg2 r ct1 ct2 T1 (O1 : tile_ops T1) g1 T2 (O2 : tile_ops T2) g2 :
  alg1 = "mean" \/ alg1 = "shoalest" -> alg2 = "mean" \/ alg2 = "shoalest" -> 0 < r -> (exists m, metres e r * metres e r * 1000 == inject_Z m)%Q ->
  ct1 <> [] -> ct2 <> [] -> all_points ct1 ⊆ all_points ct2 -> cleared e alg1 r ct1 T1 O1 g1 -> cleared e alg2 r ct2 T2 O2 g2 ->
  exists q1 q2, g_coverage_area O1 e g1 = Ok q1 /\ g_coverage_area O2 e g2 = Ok q2 /\ (q1 <= q2)%Q.
Proof.
  intros A1 A2 Hr Hm N1 N2 Hp G1 G2. destruct (cleared_area e alg1 r ct1 T1 O1 g1 A1 Hr N1 G1 Hm) as (q1 & E1 & Q1), (cleared_area e alg2 r ct2 T2 O2 g2 A2 Hr N2 G2 Hm) as (q2 & E2 & Q2).
  exists q1, q2. split; [exact E1|]. split; [exact E2|]. rewrite Q1, Q2. apply Qmult_le_compat_r; [|apply metres_square]. by apply numQ_le, squares_mono.
Qed.
Theorem C141_area_union e alg alg1 alg2 r ct ct1 ct2 T (O : tile_ops T) g T1 (O1 : tile_ops T1) g1 T2 (O2 : tile_ops T2) g2 :
  alg = "mean" \/ alg = "shoalest" -> alg1 = "mean" \/ alg1 = "shoalest" -> alg2 = "mean" \/ alg2 = "shoalest" -> 0 < r ->
  (exists m, metres e r * metres e r * 1000 == inject_Z m)%Q -> ct <> [] -> ct1 <> [] -> ct2 <> [] -> all_points ct ≡ₚ all_points ct1 ++ all_points ct2 ->
  cleared e alg r ct T O g -> cleared e alg1 r ct1 T1 O1 g1 -> cleared e alg2 r ct2 T2 O2 g2 ->
  exists q q1 q2, g_coverage_area O e g = Ok q /\ g_coverage_area O1 e g1 = Ok q1 /\ g_coverage_area O2 e g2 = Ok q2 /\ (q <= q1 + q2)%Q.
Proof.
  intros A A1 A2 Hr Hm N N1 N2 Hp G G1 G2. destruct (cleared_area e alg r ct T O g A Hr N G Hm) as (q & E & Q).
  destruct (cleared_area e alg1 r ct1 T1 O1 g1 A1 Hr N1 G1 Hm) as (q1 & E1 & Q1), (cleared_area e alg2 r ct2 T2 O2 g2 A2 Hr N2 G2 Hm) as (q2 & E2 & Q2).
  exists q, q1, q2. split; [exact E|]. split; [exact E1|]. split; [exact E2|]. rewrite Q, Q1, Q2, <- Qmult_plus_distr_l, <- numQ_add. apply Qmult_le_compat_r; [|apply metres_square].
  apply numQ_le, squares_union. intros p. rewrite Hp. by rewrite elem_of_app.
Qed.
Print Assumptions C141_area.
Print Assumptions C141_area_union.

Example C141_case_area :
  cleared env_s "mean" 8 ct_2 tile sr_ops (st_of (g_grid sr_ops env_s sr_2 (grid_args "mean" 8 true "full") None)) /\
  map (fun g => g_coverage_area sr_ops env_s (st_of (g_grid sr_ops env_s g (grid_args "mean" 8 true "full") None))) [sr_1; sr_2] = [Ok 8%Q; Ok 12%Q].
Proof.
  split; [apply (Cleared_sr _ _ _ _ 8 false true); [lia|reflexivity|apply sr_2_clean|split; reflexivity|reflexivity|vm_compute; reflexivity]|].
  vm_compute; reflexivity.
Qed.
