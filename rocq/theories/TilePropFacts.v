(** Consequences for reachable tiles, in specification vocabulary. *)
From Coq Require Import Lqa.
From Verif Require Import Py Nd Numpy Point Bin Algorithms Tile Spec TileExec
  PyFacts NdFacts NumpyFacts AlgFacts BinFacts TileFacts TileGridFacts TileSpecFacts TileRunFacts TileHistFacts
  ShoalFacts.
Open Scope Z_scope.
Ltac Zify.zify_post_hook ::= Z.div_mod_to_equations.

Lemma ncell_cover t r : 0 < t_size t -> 0 < r -> cells_cover (t_size t) r (ncell t r).
Proof.
  intros Hs Hr. unfold cells_cover, ncell. pose proof (ceil_div_spec (t_size t) r Hr).
  pose proof (ceil_div_pos (t_size t) r Hr Hs). rewrite Z2Nat.id by lia. lia.
Qed.
Lemma cells_cover_unique s r n m : 0 < r -> cells_cover s r n -> cells_cover s r m -> n = m.
Proof. unfold cells_cover. intros. nia. Qed.

Lemma layer_init n f (P : nat -> nat -> cell -> Prop) :
  (forall row col, (row < n)%nat -> (col < n)%nat -> P row col (f row col)) -> layer_is n (nd_init n n f) P.
Proof.
  intros H. repeat split; [apply nd_init_wf|]. intros row col Hr Hc. exists (f row col).
  split; [by apply nd_get_init|]. by apply H.
Qed.
Lemma layer_impl n a (P P' : nat -> nat -> cell -> Prop) :
  layer_is n a P -> (forall row col v, (row < n)%nat -> (col < n)%nat -> P row col v -> P' row col v) -> layer_is n a P'.
Proof.
  intros (H1 & H2 & H3 & H4) H. repeat split; try done. intros row col Hr Hc.
  destruct (H4 row col Hr Hc) as (v & Hv & HP). exists v. split; [done|]. by apply H.
Qed.
Lemma layer_eq n a b f :
  layer_is n a (fun row col v => v = f row col) -> layer_is n b (fun row col v => v = f row col) -> a = b.
Proof.
  intros (A1 & A2 & A3 & A4) (B1 & B2 & B3 & B4). apply nd_ext; unfold nd_wf; try congruence.
  intros i j Hi Hj. destruct (A4 i j) as (v & -> & ->); [congruence|congruence|].
  destruct (B4 i j) as (w & -> & ->); [congruence|congruence|]. done.
Qed.

Lemma depth_spec_mean t r f d :
  layer_is (ncell t r) (depth_spec t Mean r f d) (fun row col => mean_cell (map f (tile_cell t r row col d))).
Proof. apply layer_init. intros. apply mean_cell_stat. Qed.
Lemma depth_spec_least t r f d :
  layer_is (ncell t r) (depth_spec t Shoalest r f d) (fun row col => least_cell (map f (tile_cell t r row col d))).
Proof. apply layer_init. intros. apply least_cell_stat. Qed.
Lemma density_spec_layer t r d :
  layer_is (ncell t r) (density_spec t r d) (fun row col v => v = Some (numQ (length (tile_cell t r row col d)))).
Proof. by apply layer_init. Qed.

Lemma tile_cell_square t x y s b r row col d :
  at_square t x y s b -> tile_cell t r row col d = points_in_cell x y r row col d.
Proof. intros (H1 & H2 & _). unfold tile_cell. by rewrite H1, H2. Qed.

(** ** The result of gridding a reachable tile *)
Lemma good_grid e x y s b t alg ro clear mode gp border t' r :
  good e t -> at_square t x y s b -> alg ∈ ["mean"; "shoalest"; "cube"] ->
  (clear = true \/ same_kind (t_algorithm t) alg) ->
  t_grid e t alg ro clear mode gp border = Ok (t', r) ->
  good e t /\ at_square t x y s b /\ 0 < r /\ known_alg alg /\ (alg = "cube" -> cube_ready e) /\
  (clear = true \/ compat e t alg) /\ exists l', gridded_tile e t t' alg r clear gp border l'.
Proof.
  intros HG HQ HA HC Hg.
  rewrite known_elem in HA. assert (HC' : clear = true \/ compat e t alg).
  { destruct HC as [?|HC]; [by left|right]. by apply compat_kind. }
  destruct (t_grid_inv_ok _ _ _ _ _ _ _ _ _ _ HG HA HC' Hg) as (l' & HT & Hp).
  destruct (t_grid_inv _ _ _ _ _ _ _ _ _ _ HA Hg) as (_ & _ & _ & HQ').
  split; [done|]. split; [done|]. split; [by eapply pow2_res_pos|]. split; [done|].
  split; [done|]. split; [done|]. by exists l'.
Qed.
Lemma reach_grid q e x y s b t alg ro clear mode gp border t' r :
  0 < s -> tile_reach q e x y s b t -> alg ∈ ["mean"; "shoalest"; "cube"] ->
  (clear = true \/ same_kind (t_algorithm t) alg) ->
  t_grid e t alg ro clear mode gp border = Ok (t', r) ->
  good e t /\ at_square t x y s b /\ 0 < r /\ known_alg alg /\ (alg = "cube" -> cube_ready e) /\
  (clear = true \/ compat e t alg) /\ exists l', gridded_tile e t t' alg r clear gp border l'.
Proof. intros Hs HR. destruct (reach_good _ _ _ _ _ _ _ Hs HR) as (HG & HQ & _). by apply good_grid. Qed.
Lemma gridded_get e t t' alg r clear gp border l' :
  gridded_tile e t t' alg r clear gp border l' -> dget (t_cells t') r = Some l'.
Proof. intros HT. rewrite (gt_cells _ _ _ _ _ _ _ _ _ HT). apply dget_dset_eq. Qed.

Lemma simple_std e t a r gp border d name o :
  fresh_out e t a r d = Ok o -> std_layer e t (alg_name a) r gp border d name = simple_layer e t o name.
Proof. intros H. unfold std_layer. destruct a; cbn [alg_name]; repeat case_bool_decide; try done; by rewrite H. Qed.
Lemma alg_name_elem a : alg_name a ∈ ["mean"; "shoalest"; "cube"].
Proof. destruct a; cbn; rewrite !elem_of_cons; auto. Qed.
Lemma unc_key_in e dk a :
  (has_tvu (e_dt e) = true -> "vertical_uncertainty" ∈ alg_keys e dk (alg_name a)) /\
  (has_thu (e_dt e) = true -> "horizontal_uncertainty" ∈ alg_keys e dk (alg_name a)).
Proof.
  unfold alg_keys, initial_layers. rewrite bool_decide_eq_true_2 by (destruct a; auto).
  cbn [andb]. split; intros H; rewrite H.
  - destruct (has_thu (e_dt e)); rewrite ?elem_of_dkeys_dset; auto.
  - rewrite elem_of_dkeys_dset. auto.
Qed.
Lemma depth_key_ne t : t_depth_key t <> "density" /\ t_depth_key t <> "vertical_uncertainty" /\ t_depth_key t <> "horizontal_uncertainty".
Proof. destruct (depth_key_cases t) as [-> | ->]; done. Qed.

Lemma good_grid_simple e x y s b t a ro clear mode gp border t' r :
  good e t -> at_square t x y s b -> (clear = true \/ same_kind (t_algorithm t) (alg_name a)) ->
  t_grid e t (alg_name a) ro clear mode gp border = Ok (t', r) ->
  good e t /\ at_square t x y s b /\ 0 < r /\
  exists l o, dget (t_cells t') r = Some l /\ fresh_out e t a r (pts t) = Ok o /\
    dget l (depth_key_of b) = Some (depth_spec t a r pz (pts t)) /\
    dget l "density" = Some (density_spec t r (pts t)) /\
    (has_tvu (e_dt e) = true -> dget l "vertical_uncertainty" = Some (arr_round3 (o_tvu o))) /\
    (has_thu (e_dt e) = true -> dget l "horizontal_uncertainty" = Some (arr_round3 (o_thu o))).
Proof.
  intros HG0 HQ0 HC Hg.
  destruct (good_grid _ _ _ _ _ _ _ _ _ _ _ _ _ _ HG0 HQ0 (alg_name_elem a) HC Hg)
    as (HG & HQ & Hr & HA & _ & _ & l' & HT).
  split; [done|]. split; [done|]. split; [done|].
  destruct (fresh_out_ok e t a r (pts t) (g_size _ _ HG) Hr (g_in _ _ HG)) as [o Ho].
  destruct (fresh_out_spec e t a r (pts t) o (g_size _ _ HG) Hr (g_in _ _ HG) Ho) as (S1 & S2 & _ & _).
  exists l', o. split; [by eapply gridded_get|]. split; [done|].
  destruct (alg_keys_depth e (t_depth_key t) _ HA) as [K1 K2].
  destruct (depth_key_ne t) as (N1 & N2 & N3).
  assert (Hkb : t_depth_key t = depth_key_of b) by (unfold t_depth_key; by destruct HQ as (_ & _ & _ & ->)).
  rewrite <- Hkb.
  split; [|split; [|split]].
  - rewrite (gt_std _ _ _ _ _ _ _ _ _ HT _ K1), (simple_std _ _ _ _ _ _ _ _ _ Ho). unfold simple_layer.
    rewrite decide_True by done. by rewrite S1.
  - rewrite (gt_std _ _ _ _ _ _ _ _ _ HT _ K2), (simple_std _ _ _ _ _ _ _ _ _ Ho). unfold simple_layer.
    rewrite decide_False by done. rewrite decide_True by done. by rewrite S2.
  - intros Hb. pose proof (proj1 (unc_key_in e (t_depth_key t) a) Hb) as K.
    rewrite (gt_std _ _ _ _ _ _ _ _ _ HT _ K), (simple_std _ _ _ _ _ _ _ _ _ Ho). unfold simple_layer.
    rewrite decide_False by done. rewrite decide_False by done. rewrite decide_True by done. by rewrite Hb.
  - intros Hb. pose proof (proj2 (unc_key_in e (t_depth_key t) a) Hb) as K.
    rewrite (gt_std _ _ _ _ _ _ _ _ _ HT _ K), (simple_std _ _ _ _ _ _ _ _ _ Ho). unfold simple_layer.
    rewrite decide_False by done. rewrite decide_False by done. rewrite decide_False by done.
    rewrite decide_True by done. by rewrite Hb.
Qed.

Lemma reach_grid_simple q e x y s b t a ro clear mode gp border t' r :
  0 < s -> tile_reach q e x y s b t -> (clear = true \/ same_kind (t_algorithm t) (alg_name a)) ->
  t_grid e t (alg_name a) ro clear mode gp border = Ok (t', r) ->
  good e t /\ at_square t x y s b /\ 0 < r /\
  exists l o, dget (t_cells t') r = Some l /\ fresh_out e t a r (pts t) = Ok o /\
    dget l (depth_key_of b) = Some (depth_spec t a r pz (pts t)) /\
    dget l "density" = Some (density_spec t r (pts t)) /\
    (has_tvu (e_dt e) = true -> dget l "vertical_uncertainty" = Some (arr_round3 (o_tvu o))) /\
    (has_thu (e_dt e) = true -> dget l "horizontal_uncertainty" = Some (arr_round3 (o_thu o))).
Proof. intros Hs HR. destruct (reach_good _ _ _ _ _ _ _ Hs HR) as (HG & HQ & _). by apply good_grid_simple. Qed.

Lemma reach_grid_total q e x y s b t alg r clear mode gp border d :
  0 < s -> tile_reach q e x y s b t -> alg ∈ ["mean"; "shoalest"; "cube"] ->
  (clear = true \/ same_kind (t_algorithm t) alg) ->
  t_data t = Some d -> is_power_of_two (metres e r) = true -> (alg = "cube" -> cube_ready e) ->
  exists t', t_grid e t alg (Some r) clear mode gp border = Ok (t', r).
Proof.
  intros Hs HR HA HC Hd Hp HQ. destruct (reach_good _ _ _ _ _ _ _ Hs HR) as (HG & _ & _).
  rewrite known_elem in HA. assert (HC' : clear = true \/ compat e t alg).
  { destruct HC as [?|HC]; [by left|right]. by apply compat_kind. }
  destruct (t_grid_ok e t alg (Some r) r clear mode gp border d HG eq_refl Hp HA Hd HC' HQ) as (t' & l' & H & _). eauto.
Qed.

(** ** Density sums *)
Lemma sum_counts {A} (f : A -> nat) (N : nat) (d : list A) :
  Forall (fun p => f p < N)%nat d ->
  (sumQ (map (fun k => numQ (length (filter (fun p => f p = k) d))) (seq 0 N)) == numQ (length d))%Q.
Proof.
  intros HF. induction HF as [|p d Hp HF IH].
  - unfold numQ at 2. cbn. induction (seq 0 N) as [|k l IHl]; [done|]. cbn [map sumQ fold_right].
    unfold sumQ in IHl. rewrite IHl. done.
  - assert (Hstep : forall l, NoDup l ->
      (sumQ (map (fun k => numQ (length (filter (fun p0 => f p0 = k) (p :: d)))) l) ==
       sumQ (map (fun k => numQ (length (filter (fun p0 => f p0 = k) d))) l) +
         (if decide (f p ∈ l) then 1 else 0))%Q).
    { induction 1 as [|k l Hk Hnd IHl]; [rewrite decide_False by apply not_elem_of_nil; cbn; lra|]. cbn [map sumQ fold_right]. fold (sumQ) in *.
      unfold sumQ in IHl. rewrite IHl. clear IHl. rewrite filter_cons.
      destruct (decide (f p = k)) as [Heq|Hne].
      - rewrite (decide_True (P := f p ∈ k :: l)) by (rewrite Heq; left).
        rewrite (decide_False (P := f p ∈ l)) by (by rewrite Heq). cbn [length].
        unfold numQ. rewrite Nat2Z.inj_succ, <- Z.add_1_r, inject_Z_plus. change (inject_Z 1) with 1%Q. lra.
      - destruct (decide (f p ∈ l)) as [Hin|Hin].
        + rewrite decide_True by (right; done). lra.
        + rewrite decide_False by (rewrite elem_of_cons; tauto). lra. }
    rewrite Hstep by apply NoDup_seq. rewrite IH. rewrite decide_True by (apply elem_of_seq; lia).
    cbn [length]. unfold numQ. rewrite (Nat2Z.inj_succ (length d)), <- Z.add_1_r, inject_Z_plus.
    change (inject_Z 1) with 1%Q. lra.
Qed.

Lemma values_init n f : values (nd_init n n (fun i j => Some (f i j))) = map (fun k => f (k / n)%nat (k mod n)%nat) (seq 0 (n * n)).
Proof. unfold values, nd_init. cbn [nflat]. induction (seq 0 (n * n)) as [|k l IH]; [done|]. cbn. by rewrite IH. Qed.

Lemma density_spec_sum t r d :
  0 < t_size t -> 0 < r -> Forall (in_tile t) d ->
  (sumQ (values (density_spec t r d)) == numQ (length d))%Q.
Proof.
  intros Hs Hr Hd. unfold density_spec. rewrite values_init. set (n := ncell t r).
  assert (Hn : (0 < n)%nat) by (by apply ncell_pos).
  rewrite <- (sum_counts (fun p => Z.to_nat (cellno t r p)) (n * n)).
  - rewrite (map_ext_in _ (fun k => numQ (length (filter (fun p => Z.to_nat (cellno t r p) = k) d)))); [done|].
    intros k Hk%elem_of_list_In. apply elem_of_seq in Hk.
    destruct (flat_div_lt n n k) as [H1 H2]; [lia|].
    rewrite <- (filter_cellno t r (k / n) (k mod n) d) by done. fold n.
    unfold numQ, qnat. do 3 f_equal. apply filter_ext_in.
    pose proof (cellno_all t r d Hs Hr Hd) as HF. rewrite Forall_fmap in HF.
    eapply Forall_impl; [exact HF|]. cbv beta. intros p Hp. cbn in Hp. fold n in Hp.
    rewrite <- (flat_split n k Hn). lia.
  - pose proof (cellno_all t r d Hs Hr Hd) as HF. rewrite Forall_fmap in HF.
    eapply Forall_impl; [exact HF|]. cbv beta. intros p Hp. cbn in Hp. fold n in Hp. lia.
Qed.

(** ** Point order *)
Lemma tile_cell_perm t r row col d d' : d ≡ₚ d' -> tile_cell t r row col d ≡ₚ tile_cell t r row col d'.
Proof. intros H. unfold tile_cell, points_in_cell. by rewrite H. Qed.
Lemma nd_init_ext {A} n m (f g : nat -> nat -> A) :
  (forall i j, (i < n)%nat -> (j < m)%nat -> f i j = g i j) -> nd_init n m f = nd_init n m g.
Proof.
  intros H. apply nd_ext; try done; try apply nd_init_wf. intros i j Hi Hj. cbn in Hi, Hj.
  rewrite !nd_get_init by done. by rewrite H.
Qed.
Lemma depth_spec_perm t a r f d d' : d ≡ₚ d' -> depth_spec t a r f d = depth_spec t a r f d'.
Proof.
  intros H. apply nd_init_ext. intros. apply stat_cell_perm. by rewrite (tile_cell_perm t r i j d d').
Qed.
Lemma density_spec_perm t r d d' : d ≡ₚ d' -> density_spec t r d = density_spec t r d'.
Proof. intros H. apply nd_init_ext. intros. by rewrite (tile_cell_perm t r i j d d'). Qed.
Lemma depth_spec_frame t t' a r f d : same_frame t t' -> depth_spec t' a r f d = depth_spec t a r f d.
Proof. intros (H1 & H2 & H3 & _). unfold depth_spec, ncell, tile_cell. by rewrite H1, H2, H3. Qed.
Lemma density_spec_frame t t' r d : same_frame t t' -> density_spec t' r d = density_spec t r d.
Proof. intros (H1 & H2 & H3 & _). unfold density_spec, ncell, tile_cell. by rewrite H1, H2, H3. Qed.
Lemma at_square_same t t' x y s b : at_square t x y s b -> at_square t' x y s b -> same_frame t t'.
Proof. intros (A & B & C & D) (A' & B' & C' & D'). repeat split; congruence. Qed.

(** ** Resolutions *)
Lemma gridded_resolutions e t t' alg r clear gp border l' :
  gridded_tile e t t' alg r clear gp border l' ->
  (forall k, k ∈ t_resolutions t' <-> k = r \/ (clear = false /\ k ∈ t_resolutions t)) /\
  (forall k, k <> r -> dget (t_cells t') k = if clear then None else dget (t_cells t) k).
Proof.
  intros HT. unfold t_resolutions. rewrite (gt_cells _ _ _ _ _ _ _ _ _ HT). split; intros k.
  - rewrite elem_of_dkeys_dset. destruct clear.
    + unfold dkeys at 1. cbn. rewrite elem_of_nil. naive_solver.
    + change (t_cells (clear_temp_data t r)) with (dmapkv (fun r' l => if decide (r' = r) then clear_temp_layers l else l) (t_cells t)).
      rewrite dkeys_dmapkv. naive_solver.
  - intros Hne. rewrite dget_dset_ne by done. destruct clear; [done|].
    change (t_cells (clear_temp_data t r)) with (dmapkv (fun r' l => if decide (r' = r) then clear_temp_layers l else l) (t_cells t)).
    rewrite dget_dmapkv.
    destruct (dget (t_cells t) k); [|done]. cbn [fmap option_fmap option_map]. by rewrite decide_False by done.
Qed.

(** ** Incremental gridding *)
Lemma incremental q e x y s b t t2 alg ro ro2 clear clear2 mode mode2 gp border t' t2' r :
  0 < s -> tile_reach q e x y s b t -> tile_reach q e x y s b t2 -> pts t2 = pts t ->
  alg ∈ ["mean"; "shoalest"; "cube"] ->
  (clear = true \/ same_kind (t_algorithm t) alg) -> (clear2 = true \/ same_kind (t_algorithm t2) alg) ->
  t_grid e t alg ro clear mode gp border = Ok (t', r) ->
  t_grid e t2 alg ro2 clear2 mode2 gp border = Ok (t2', r) ->
  exists l l2, dget (t_cells t') r = Some l /\ dget (t_cells t2') r = Some l2 /\
    (forall name, name ∈ alg_keys e (depth_key_of b) alg -> dget l name = dget l2 name /\ is_Some (dget l name)) /\
    (q = false -> forall name, name ∉ alg_keys e (depth_key_of b) alg -> dget l name = None /\ dget l2 name = None).
Proof.
  intros Hs HR HR2 Hp HA HC HC2 Hg Hg2.
  destruct (reach_grid _ _ _ _ _ _ _ _ _ _ _ _ _ _ _ Hs HR HA HC Hg) as (HG & HQ & Hr & HA' & Hcr & HC' & l & HT).
  destruct (reach_grid _ _ _ _ _ _ _ _ _ _ _ _ _ _ _ Hs HR2 HA HC2 Hg2) as (HG2 & HQ2 & _ & _ & _ & HC2' & l2 & HT2).
  exists l, l2. split; [by eapply gridded_get|]. split; [by eapply gridded_get|].
  assert (Hk : t_depth_key t = depth_key_of b) by (unfold t_depth_key; by destruct HQ as (_ & _ & _ & ->)).
  assert (Hk2 : t_depth_key t2 = depth_key_of b) by (unfold t_depth_key; by destruct HQ2 as (_ & _ & _ & ->)).
  assert (Hf : same_frame t t2) by (by eapply at_square_same).
  split.
  - intros name Hn. pose proof Hn as Hn2. rewrite <- Hk in Hn. rewrite <- Hk2 in Hn2.
    rewrite (gt_std _ _ _ _ _ _ _ _ _ HT _ Hn), (gt_std _ _ _ _ _ _ _ _ _ HT2 _ Hn2), Hp.
    split; [symmetry; by apply std_layer_frame|].
    destruct (std_layer_total e t alg r gp border (pts t) (g_size _ _ HG) Hr (g_in _ _ HG) HA' Hcr) as [H _].
    by apply H.
  - intros -> name Hn.
    destruct (reach_good _ _ _ _ _ _ _ Hs HR) as (_ & _ & HX). specialize (HX eq_refl).
    destruct (reach_good _ _ _ _ _ _ _ Hs HR2) as (_ & _ & HX2). specialize (HX2 eq_refl).
    pose proof (exact_grid _ _ _ _ _ _ _ _ _ HG HX HA' HC' HT) as HX'.
    pose proof (exact_grid _ _ _ _ _ _ _ _ _ HG2 HX2 HA' HC2' HT2) as HX2'.
    assert (Hkt : t_depth_key t' = depth_key_of b).
    { unfold t_depth_key in *. destruct (gt_frame _ _ _ _ _ _ _ _ _ HT) as (_ & _ & _ & ->). done. }
    assert (Hkt2 : t_depth_key t2' = depth_key_of b).
    { unfold t_depth_key in *. destruct (gt_frame _ _ _ _ _ _ _ _ _ HT2) as (_ & _ & _ & ->). done. }
    split.
    + destruct (dget l name) eqn:E; [|done]. exfalso. apply Hn. rewrite <- Hkt.
      apply (HX' r l alg); [by eapply gridded_get|by apply HT|eauto].
    + destruct (dget l2 name) eqn:E; [|done]. exfalso. apply Hn. rewrite <- Hkt2.
      apply (HX2' r l2 alg); [by eapply gridded_get|by apply HT2|eauto].
Qed.

(** ** CUBE *)
Lemma cube_std e t r gp border d name qq :
  cube_fresh e t r gp border d = Ok qq -> std_layer e t "cube" r gp border d name = cube_layer t qq name.
Proof. intros H. unfold std_layer. repeat case_bool_decide; try done; by rewrite H. Qed.

Lemma flip_get (a : arr) (n i j : nat) :
  nrows a = n -> ncols a = n -> (i < n)%nat -> (j < n)%nat ->
  nd_get (nd_flipud None a) i j = Some (default None (nd_get a (n - 1 - i)%nat j)).
Proof. intros H1 H2 Hi Hj. unfold nd_flipud. rewrite H1, H2. by rewrite nd_get_init. Qed.

Lemma place_valid_cell (dout out : arr) n v i j :
  nrows dout = n -> ncols dout = n -> nrows out = n -> ncols out = n -> (i < n)%nat -> (j < n)%nat ->
  nd_get (place_valid dout out (nd_full n n v)) i j =
  Some (match nd_get dout (n - 1 - i)%nat j with
        | Some (Some _) => default None (nd_get out (n - 1 - i)%nat j)
        | _ => v end).
Proof.
  intros H1 H2 H3 H4 Hi Hj. unfold place_valid. cbn zeta. cbn [nrows ncols nd_full]. rewrite nd_get_init by done.
  rewrite !(flip_get _ n) by done. cbn.
  destruct (nd_get dout (n - 1 - i) j) as [[w|]|]; cbn; try done; by rewrite nd_get_full by done.
Qed.

(** ** Depth bands *)
Lemma argmax_first l i :
  l !! i = Some true -> (forall j, (j < i)%nat -> l !! j = Some false) -> argmax_bool l = i.
Proof.
  revert i. induction l as [|b l IH]; intros i Hi Hb; [done|]. destruct i as [|i].
  - cbn in Hi. injection Hi as ->. done.
  - pose proof (Hb 0%nat ltac:(lia)) as H0. cbn in H0. injection H0 as ->. cbn [argmax_bool].
    assert (He : existsb id l = true).
    { apply existsb_exists. exists true. split; [|done]. apply elem_of_list_In. cbn in Hi. by eapply elem_of_list_lookup_2. }
    rewrite He. f_equal. apply IH; [done|]. intros j Hj. apply (Hb (S j)). lia.
Qed.
Lemma argmax_none l : Forall (fun b => b = false) l -> argmax_bool l = 0%nat.
Proof.
  destruct l as [|b l]; [done|]. intros HF. inversion HF as [|? ? -> HF']; subst. cbn.
  destruct (existsb id l) eqn:E; [|done]. apply existsb_exists in E as (x & Hx & Hid).
  rewrite Forall_forall in HF'. apply elem_of_list_In in Hx. apply HF' in Hx. by subst.
Qed.

(** ** Density resolution *)
Lemma tile_cell_counts_ok e t r d :
  good e t -> t_data t = Some d -> 0 < r -> exists uc, t_return_cell_counts t r = Ok uc.
Proof.
  intros HG Hd Hr. unfold t_return_cell_counts. rewrite Hd.
  destruct (cell_edges_tile t r (g_size _ _ HG) Hr) as [-> ->]. cbn [rbind].
  rewrite bin2d_tile; [cbn; eauto|apply HG|done|]. pose proof (g_in _ _ HG) as H. unfold pts in H. by rewrite Hd in H.
Qed.
Lemma clip_lt n i : (0 < n)%nat -> (i <= n)%nat -> (clip_index n i < n)%nat.
Proof. intros. unfold clip_index. destruct (i =? n)%nat eqn:E; [apply Nat.eqb_eq in E|apply Nat.eqb_neq in E]; lia. Qed.

Lemma density_resolution_legal e t start noise r :
  t_resolution_by_density e t start noise = Ok r ->
  r <= t_size t /\ (r = t_size t \/ r ∈ rez_options e).
Proof.
  unfold t_resolution_by_density. intros (s0 & _ & H)%rbind_Ok. apply rbind_Ok in H as (uc & _ & H).
  apply rbind_Ok in H as (kv & Hkv & H). injection H as <-. split; [lia|].
  destruct (depth_resolution_lookup !! _) as [kv'|] eqn:E; [|done]. injection Hkv as ->.
  destruct (Z.min_spec (rez_ticks e kv.2) (t_size t)) as [[_ ->]|[_ ->]]; [right|by left].
  unfold rez_options. apply elem_of_list_fmap. exists kv. split; [done|]. by eapply elem_of_list_lookup_2.
Qed.
Lemma density_resolution_total e t start noise d :
  good e t -> t_data t = Some d -> 0 < e_tpq e -> (match start with Some s => s ∈ rez_options e | None => True end) ->
  exists r, t_resolution_by_density e t start noise = Ok r.
Proof.
  intros HG Hd He Hst. unfold t_resolution_by_density.
  assert (Hs0 : exists s0, match start with None => Ok (starting_resolution_density e)
             | Some s => if bool_decide (s ∈ rez_options e) then Ok s else Raise ValueError end = Ok s0 /\ 0 < s0).
  { destruct start as [s|].
    - rewrite bool_decide_eq_true_2 by done. exists s. split; [done|].
      unfold rez_options in Hst. apply elem_of_list_fmap in Hst as (kv & -> & Hkv). unfold rez_ticks.
      assert (Hall : Forall (fun kv : Z * Z => 0 < kv.2) depth_resolution_lookup) by (repeat constructor).
      rewrite Forall_forall in Hall. specialize (Hall kv Hkv). nia.
    - exists (starting_resolution_density e). split; [done|]. unfold starting_resolution_density, rez_ticks. lia. }
  destruct Hs0 as (s0 & -> & Hs0). cbn [rbind].
  destruct (tile_cell_counts_ok e t (Z.min (t_size t) s0) d HG Hd) as [uc ->].
  { pose proof (g_size _ _ HG). lia. }
  cbn [rbind]. match goal with |- context [clip_index ?n ?i] => assert (Hi : (i <= n)%nat) end.
  { destruct (Qle_bool _ _).
    - destruct (qmean _); [|done].
      pose proof (searchsorted_left_q_le (map (fun kv => inject_Z kv.1) depth_resolution_lookup) q) as H.
      by rewrite map_length in H.
    - match goal with |- (searchsorted_left_q ?l ?m <= _)%nat => pose proof (searchsorted_left_q_le l m) as H end.
      by rewrite map_length in H. }
  match goal with |- context [clip_index ?n ?i] => pose proof (clip_lt n i ltac:(cbn; lia) Hi) as Hc end.
  apply lookup_lt_is_Some in Hc as [kv Hkv]. rewrite Hkv. cbn. eauto.
Qed.

(** ** The old density search *)
Lemma index_of_lookup l v i : index_of l v = Some i -> l !! i = Some v.
Proof.
  revert i. induction l as [|x l IH]; intros i; [done|]. cbn. destruct (decide (x = v)) as [->|].
  - by intros [= <-].
  - intros (j & Hj & ->)%fmap_Some. by apply IH.
Qed.
Lemma old_step_continue options v current checked c ch :
  density_old_step options v current checked = Ok (Continue c ch) ->
  ch = checked ++ [current] /\ c ∈ options /\ c ∉ ch /\ current ∈ options.
Proof.
  unfold density_old_step. intros (i & Hi & H)%rbind_Ok.
  destruct (index_of options current) as [j|] eqn:E; [|done]. injection Hi as ->.
  apply index_of_lookup in E. apply elem_of_list_lookup_2 in E.
  assert (Hnext : forall c0, (if bool_decide (c0 ∈ checked ++ [current]) then Return (Z.max c0 current)
                              else Continue c0 (checked ++ [current])) = Continue c ch ->
            c0 = c /\ ch = checked ++ [current] /\ c ∉ ch).
  { intros c0. destruct (bool_decide _) eqn:Eb; [done|]. intros [= <- <-].
    apply bool_decide_eq_false in Eb. done. }
  destruct v as [[]|]; [| |done].
  - destruct (i =? _)%nat; [done|]. apply rbind_Ok in H as (c0 & Hc0 & H). injection H as H.
    apply Hnext in H as (-> & -> & H). destruct (options !! (i + 1)%nat) eqn:E2; [|done]. injection Hc0 as ->.
    apply elem_of_list_lookup_2 in E2. done.
  - destruct (i =? _)%nat; [done|]. apply rbind_Ok in H as (c0 & Hc0 & H). injection H as H.
    apply Hnext in H as (-> & -> & H). destruct (options !! (i - 1)%nat) eqn:E2; [|done]. injection Hc0 as ->.
    apply elem_of_list_lookup_2 in E2. done.
Qed.
Lemma old_loop_terminates fuel assess options current checked :
  NoDup checked -> checked ⊆ options -> current ∉ checked ->
  (length options < fuel + length checked)%nat ->
  density_old_loop fuel assess options current checked <> None.
Proof.
  revert current checked. induction fuel as [|fuel IH]; intros current checked Hnd Hsub Hc Hf.
  - exfalso. pose proof (submseteq_length checked options (NoDup_submseteq _ _ Hnd (fun x => Hsub x))). lia.
  - cbn [density_old_loop]. destruct (let* v := assess current in density_old_step options v current checked) as [[r|c ch]|x] eqn:E; try done.
    apply rbind_Ok in E as (v & _ & E). apply old_step_continue in E as (-> & H1 & H2 & H3).
    apply IH.
    + apply NoDup_app. split; [done|]. split; [|apply NoDup_singleton].
      intros y Hy ->%elem_of_list_singleton. done.
    + intros y [Hy| ->%elem_of_list_singleton]%elem_of_app; [by apply Hsub|done].
    + done.
    + rewrite app_length. cbn. lia.
Qed.
