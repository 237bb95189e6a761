(** What shoalest gridding writes in the uncertainty layers; slopes. *)
From Coq Require Import Lqa.
From Verif Require Import Py Nd Numpy Point Bin Algorithms Tile Spec
  PyFacts NdFacts NumpyFacts AlgFacts BinFacts TileFacts TileGridFacts TileSpecFacts TileRunFacts.
Open Scope Z_scope.
Ltac Zify.zify_post_hook ::= Z.div_mod_to_equations.

(** Number of values below [m]. *)
Definition rank (l : list Q) (m : Q) : nat := length (filter (fun x => Qle_bool m x = false) l).
Lemma rank_perm l l' m : l ≡ₚ l' -> rank l m = rank l' m.
Proof. intros H. unfold rank. by rewrite H. Qed.
Lemma q_le_Qle a b : q_le a b <-> (a <= b)%Q.
Proof. unfold q_le. apply Qle_bool_iff. Qed.
Lemma Qle_bool_false a b : Qle_bool a b = false <-> (b < a)%Q.
Proof.
  split; intros H.
  - apply Qnot_le_lt. intros H'. apply Qle_bool_iff in H'. congruence.
  - destruct (Qle_bool a b) eqn:E; [|done]. apply Qle_bool_iff in E. lra.
Qed.
Lemma searchsorted_rank l m : StronglySorted q_le l -> searchsorted_left_q l m = rank l m.
Proof.
  unfold rank. induction 1 as [|x l H IH HF]; [done|]. cbn [searchsorted_left_q]. rewrite filter_cons.
  destruct (Qle_bool m x) eqn:E; cbn [negb].
  - rewrite decide_False by congruence. clear IH. induction HF as [|y l Hxy HF IHF]; [done|].
    rewrite filter_cons. rewrite decide_False; [by apply IHF; inversion H|].
    apply Qle_bool_iff in E. apply q_le_Qle in Hxy. intros Hf. apply Qle_bool_false in Hf. lra.
  - rewrite decide_True by done. cbn. by rewrite IH.
Qed.
Lemma merge_sort_q_sorted l : StronglySorted q_le (merge_sort q_le l).
Proof.
  apply StronglySorted_merge_sort.
  - intros a b c H1 H2. apply q_le_Qle in H1, H2. apply q_le_Qle. lra.
  - intros a b. rewrite !q_le_Qle. destruct (Qlt_le_dec a b); [left|right]; lra.
Qed.

(** In ascending distinct data the rank of a value is its position. *)
Lemma rank_position l i m :
  StronglySorted Qlt l -> l !! i = Some m -> rank l m = i.
Proof.
  intros H. revert i. induction H as [|x l H IH HF]; intros i Hi; [done|].
  unfold rank in *. rewrite filter_cons. destruct i as [|i]; cbn in Hi.
  - injection Hi as ->. rewrite decide_False.
    + clear IH. induction HF as [|y l Hy HF IHF]; [done|]. rewrite filter_cons.
      rewrite decide_False; [by apply IHF; inversion H|]. intros Hf. apply Qle_bool_false in Hf. lra.
    + intros Hf. apply Qle_bool_false in Hf. lra.
  - rewrite decide_True; [by cbn; rewrite (IH _ Hi)|]. apply Qle_bool_false.
    rewrite Forall_forall in HF. apply HF. by eapply elem_of_list_lookup_2.
Qed.

Lemma rmap_lookup_map {A} (vals : list A) (h : Z -> nat) (dflt : A) (ks : list Z) v :
  rmap (fun i => rofopt (vals !! i) IndexError) (map h ks) = Ok v ->
  v = map (fun k => default dflt (vals !! h k)) ks /\ Forall (fun k => is_Some (vals !! h k)) ks.
Proof.
  revert v. induction ks as [|k ks IH]; intros v; cbn [map rmap].
  - intros [= <-]. split; [done|constructor].
  - intros (b & Hb & H)%rbind_Ok. apply rbind_Ok in H as (bs & Hbs & H). injection H as <-.
    destruct (IH _ Hbs) as [-> HF]. destruct (vals !! h k) eqn:E; [|done]. injection Hb as <-.
    split; [done|]. constructor; [eauto|done].
Qed.

Lemma shoalest_unc_written s idx rows cols g depth vals (grid a : arr) :
  sorting_perm idx s -> Forall (fun k => 0 <= k < Z.of_nat (rows * cols)) idx ->
  cell_groups s idx rows cols = Ok g -> length depth = length idx -> length vals = length idx ->
  shape_is grid rows cols ->
  scatter_shoalest_unc g depth (reduceat qmin (take_idx depth s) (gr_idx g)) vals grid = Ok a ->
  written grid a idx (fun k => vals !! rank depth (min_of (sorted_group_of s idx depth k))) /\
  forall k, k ∈ idx -> is_Some (vals !! rank depth (min_of (sorted_group_of s idx depth k))).
Proof.
  intros Hs Hr Hg Hl Hlv Hsh. rewrite (cell_groups_eq s idx rows cols Hs Hr) in Hg. injection Hg as <-.
  cbn [gr_idx gr_rc]. rewrite (reduceat_eq s idx Hs depth Hl qmin 0%Q).
  unfold scatter_shoalest_unc. rewrite map_map. intros (v & Hv & H)%rbind_Ok. cbn [gr_rc] in H. injection H as <-.
  apply (rmap_lookup_map vals _ 0%Q) in Hv as [-> HF].
  assert (Hrank : forall k, searchsorted_left_q (merge_sort q_le depth)
              (default 0%Q (reduce1 qmin (sorted_group_of s idx depth k))) =
            rank depth (min_of (sorted_group_of s idx depth k))).
  { intros k. rewrite searchsorted_rank by apply merge_sort_q_sorted. apply rank_perm, merge_sort_Permutation. }
  split.
  - rewrite (map_map _ Some).
    rewrite (map_ext_in _ (fun k => vals !! rank depth (min_of (sorted_group_of s idx depth k)))).
    + by apply (scatter_written s idx rows cols Hs Hr).
    + intros k Hk%elem_of_list_In. rewrite Forall_forall in HF. specialize (HF k Hk). rewrite Hrank in HF |- *.
      by destruct HF as [x ->].
  - intros k Hk. rewrite Forall_forall in HF. rewrite <- Hrank. apply HF. by rewrite elem_of_np_unique.
Qed.

(** The uncertainty layers of a shoalest grid on fresh arrays. *)
Lemma fresh_shoalest_unc s e t r d o :
  0 < t_size t -> 0 < r -> Forall (in_tile t) d -> sorting_perm (map (cellno t r) d) s ->
  fresh_with s e t Shoalest r d = Ok o -> d <> [] ->
  (has_tvu (e_dt e) = true ->
     written (nd_full (ncell t r) (ncell t r) None) (o_tvu o) (map (cellno t r) d)
       (fun k => map ptvu d !! rank (map pz d) (min_of (sorted_group_of s (map (cellno t r) d) (map pz d) k)))) /\
  (has_thu (e_dt e) = true ->
     written (nd_full (ncell t r) (ncell t r) None) (o_thu o) (map (cellno t r) d)
       (fun k => map pthu d !! rank (map pz d) (min_of (sorted_group_of s (map (cellno t r) d) (map pz d) k)))).
Proof.
  intros Hs Hr Hd HS Ho Hne. set (n := ncell t r) in *. set (idx := map (cellno t r) d) in *.
  assert (HF : Forall (fun k => 0 <= k < Z.of_nat (n * n)) idx) by (by apply cellno_all).
  assert (Hl : forall f : point -> Q, length (map f d) = length idx) by (intros; unfold idx; by rewrite !map_length).
  unfold fresh_with in Ho. cbn [run_simple_with] in Ho. fold n idx in Ho. unfold np_grid_shoalest_with in Ho.
  apply rbind_Ok in Ho as (g & Hg & Ho). apply rbind_Ok in Ho as (tv & Htv & Ho).
  apply rbind_Ok in Ho as (th & Hth & Ho). injection Ho as <-. cbn [o_tvu o_thu].
  cbn [nrows ncols nd_full] in Hg.
  assert (Hen : forall f : point -> Q, unc_enabled (map f d) (nd_full n n None) = true).
  { intros f. unfold unc_enabled, nd_size. apply andb_true_intro. split; apply Nat.ltb_lt.
    - rewrite map_length. destruct d; [done|cbn; lia].
    - cbn. rewrite replicate_length. pose proof (ncell_pos t r Hs Hr). unfold n. nia. }
  split; intros Hb.
  - rewrite Hb in Htv. cbn [opt_vals opt_grid] in Htv. rewrite Hen in Htv.
    apply (shoalest_unc_written s idx n n g _ _ _ _ HS HF Hg (Hl pz) (Hl ptvu) (full_shape n None)) in Htv as [H _].
    exact H.
  - rewrite Hb in Hth. cbn [opt_vals opt_grid] in Hth. rewrite Hen in Hth.
    apply (shoalest_unc_written s idx n n g _ _ _ _ HS HF Hg (Hl pz) (Hl pthu) (full_shape n None)) in Hth as [H _].
    exact H.
Qed.

(** With ascending distinct depths, each populated cell gets a value of one of its shoalest points. *)
Lemma shoalest_unc_sorted s t r d (f : point -> Q) (a : arr) row col :
  0 < t_size t -> 0 < r -> Forall (in_tile t) d -> sorting_perm (map (cellno t r) d) s ->
  StronglySorted Qlt (map pz d) -> (row < ncell t r)%nat -> (col < ncell t r)%nat ->
  written (nd_full (ncell t r) (ncell t r) None) a (map (cellno t r) d)
    (fun k => map f d !! rank (map pz d) (min_of (sorted_group_of s (map (cellno t r) d) (map pz d) k))) ->
  tile_cell t r row col d <> [] ->
  exists p, p ∈ tile_cell t r row col d /\ is_min (map pz (tile_cell t r row col d)) (pz p) /\
    nd_get (arr_round3 a) row col = Some (Some (round3 (f p))).
Proof.
  intros Hs Hr Hd HS Hasc Hrow Hcol (Hw & Hr1 & Hc1 & Hl) Hne. cbn in Hr1, Hc1.
  set (n := ncell t r) in *. set (idx := map (cellno t r) d) in *. set (k := Z.of_nat (row * n + col)).
  assert (Hcell : tile_cell t r row col d = filter (fun p => cellno t r p = k) d) by (symmetry; by apply filter_cellno).
  rewrite Hcell in *.
  assert (Hk : k ∈ idx) by (unfold idx; by rewrite elem_map_filter).
  assert (Hlen : length (map pz d) = length idx) by (unfold idx; by rewrite !map_length).
  pose proof (sorted_group_perm s idx HS (map pz d) Hlen k) as HP.
  assert (Hg : group_of idx (map pz d) k = map pz (filter (fun p => cellno t r p = k) d))
    by (unfold idx; apply group_of_map).
  rewrite Hg in HP.
  pose proof (sorted_group_nonempty s idx HS (map pz d) Hlen k Hk) as Hne2.
  pose proof (min_of_in _ Hne2) as Hm. pose proof (min_of_spec _ Hne2) as Hmin.
  set (m := min_of (sorted_group_of s idx (map pz d) k)) in *.
  rewrite HP in Hm. apply elem_of_list_fmap in Hm as (p & Hpm & Hp). exists p. split; [done|].
  split; [rewrite <- Hpm; by eapply is_min_perm|].
  apply elem_of_list_filter in Hp as [_ Hp]. apply elem_of_list_lookup in Hp as [i Hi].
  assert (Hrank : rank (map pz d) m = i).
  { apply rank_position; [done|]. rewrite list_lookup_fmap, Hi. cbn. by rewrite Hpm. }
  unfold arr_round3. rewrite nd_get_map. rewrite nd_get_in by congruence. rewrite Hl, Hc1.
  fold k. rewrite decide_True by done. fold m. rewrite Hrank. rewrite list_lookup_fmap, Hi. done.
Qed.

(** ** Slopes *)
Lemma slopes_spec s e t r d :
  0 < t_size t -> 0 < r -> Forall (in_tile t) d -> sorting_perm (map (cellno t r) d) s ->
  exists sx sy,
    calculate_slopes_with e s (map (fun p => (px p, py p, pz p)) d) (map (cellno t r) d) (ncell t r) (ncell t r) = Ok (sx, sy) /\
    shape_is sx (ncell t r) (ncell t r) /\ shape_is sy (ncell t r) (ncell t r) /\
    forall row col, (row < ncell t r)%nat -> (col < ncell t r)%nat ->
      (tile_cell t r row col d = [] /\ nd_get sx row col = Some None /\ nd_get sy row col = Some None) \/
      (tile_cell t r row col d <> [] /\
       exists l, l ≡ₚ map (fun p => (px p, py p, pz p)) (tile_cell t r row col d) /\
         nd_get sx row col = Some (Some (e_lstsq e l).1) /\ nd_get sy row col = Some (Some (e_lstsq e l).2)).
Proof.
  intros Hs Hr Hd HS. set (n := ncell t r) in *. set (idx := map (cellno t r) d) in *.
  set (xyz := map (fun p => (px p, py p, pz p)) d).
  assert (HF : Forall (fun k => 0 <= k < Z.of_nat (n * n)) idx) by (by apply cellno_all).
  assert (Hl : length xyz = length idx) by (unfold xyz, idx; by rewrite !map_length).
  unfold calculate_slopes_with. rewrite (cell_groups_eq s idx n n HS HF). cbn [rbind gr_idx gr_rc].
  rewrite (split_eq s idx HS xyz Hl). rewrite !map_map.
  eexists _, _. split; [reflexivity|].
  set (fx := fun k => Some (e_lstsq e (sorted_group_of s idx xyz k)).1).
  set (fy := fun k => Some (e_lstsq e (sorted_group_of s idx xyz k)).2).
  pose proof (scatter_written s idx n n HS HF (nd_full n n None) fx (full_shape n None)) as Hx.
  pose proof (scatter_written s idx n n HS HF (nd_full n n None) fy (full_shape n None)) as Hy.
  rewrite map_map in Hx, Hy.
  split; [eapply written_shape; [apply full_shape|exact Hx]|].
  split; [eapply written_shape; [apply full_shape|exact Hy]|].
  intros row col Hrow Hcol. set (k := Z.of_nat (row * n + col)).
  destruct Hx as (_ & Xr & Xc & Xl). destruct Hy as (_ & Yr & Yc & Yl).
  cbn in Xr, Xc, Yr, Yc.
  assert (Hcell : tile_cell t r row col d = filter (fun p => cellno t r p = k) d) by (symmetry; by apply filter_cellno).
  rewrite !nd_get_in by congruence. rewrite Xl, Yl, Xc, Yc. fold k.
  destruct (decide (k ∈ idx)) as [Hin|Hin].
  - right. split; [rewrite Hcell; unfold idx in Hin; by rewrite elem_map_filter in Hin|].
    exists (sorted_group_of s idx xyz k). split; [|done].
    rewrite (sorted_group_perm s idx HS xyz Hl k), Hcell.
    assert (Hg : group_of idx xyz k = map (fun p => (px p, py p, pz p)) (filter (fun p => cellno t r p = k) d))
      by (unfold idx, xyz; apply group_of_map).
    by rewrite Hg.
  - left. split.
    + rewrite Hcell. unfold idx in Hin. rewrite elem_map_filter in Hin.
      destruct (filter _ d); [done|]. by destruct Hin.
    + cbn. rewrite lookup_replicate_2 by (by apply flat_lt). done.
Qed.
