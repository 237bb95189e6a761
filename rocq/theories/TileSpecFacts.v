(** What gridding a tile computes, cell by cell. *)
From Coq Require Import Lqa.
From Verif Require Import Py Nd Numpy Point Bin Algorithms Tile Spec
  PyFacts NdFacts NumpyFacts AlgFacts BinFacts TileFacts TileGridFacts.
Open Scope Z_scope.
Ltac Zify.zify_post_hook ::= Z.div_mod_to_equations.

(** ** Groups of a mapped list are filters *)
Lemma group_of_map {A V} (f : A -> Z) (g : A -> V) (d : list A) k :
  group_of (map f d) (map g d) k = map g (filter (fun p => f p = k) d).
Proof.
  unfold group_of, vals_at. induction d as [|p d IH]; [done|].
  cbn [map zip_with]. rewrite !filter_cons. cbn [fst]. destruct (decide (f p = k)); cbn; by rewrite <- IH.
Qed.
Lemma count_of_map {A} (f : A -> Z) (d : list A) k :
  count_of (map f d) k = length (filter (fun p => f p = k) d).
Proof.
  unfold count_of. induction d as [|p d IH]; [done|]. cbn [map]. rewrite !filter_cons.
  destruct (decide (f p = k)); cbn; by rewrite IH.
Qed.
Lemma elem_map_filter {A} (f : A -> Z) (d : list A) k : k ∈ map f d <-> filter (fun p => f p = k) d <> [].
Proof.
  split.
  - intros (p & -> & Hp)%elem_of_list_fmap Hnil.
    assert (H : p ∈ filter (fun q => f q = f p) d) by (by apply elem_of_list_filter).
    rewrite Hnil in H. by apply elem_of_nil in H.
  - intros H. destruct (filter _ d) as [|p l] eqn:E; [done|].
    assert (Hp : p ∈ filter (fun q => f q = k) d) by (rewrite E; left).
    apply elem_of_list_filter in Hp as [<- Hp]. apply elem_of_list_fmap. eauto.
Qed.

Lemma filter_ext_in {A} (P Q : A -> Prop) `{!forall x, Decision (P x), !forall x, Decision (Q x)} l :
  Forall (fun x => P x <-> Q x) l -> filter P l = filter Q l.
Proof.
  induction 1 as [|x l Hx HF IH]; [done|]. rewrite !filter_cons.
  destruct (decide (P x)), (decide (Q x)); rewrite ?IH; tauto.
Qed.

Definition tile_cell (t : tile) (r : Z) (row col : nat) (d : list point) : list point :=
  points_in_cell (t_min_x t) (t_min_y t) r row col d.

Lemma filter_cellno t r row col d :
  0 < t_size t -> 0 < r -> Forall (in_tile t) d -> (col < ncell t r)%nat ->
  filter (fun p => cellno t r p = Z.of_nat (row * ncell t r + col)) d = tile_cell t r row col d.
Proof.
  intros Hs Hr Hd Hc. unfold tile_cell, points_in_cell.
  apply filter_ext_in. eapply Forall_impl; [done|]. intros p Hp. cbv beta.
  unfold cellno. rewrite (cell_number_in_cell _ _ _ _ (ncell t r)); [done|done| |done].
  by apply in_tile_rect.
Qed.

Definition stat_of (a : simple_algorithm) (l : list Q) : Q :=
  match a with Mean => mean_of l | Shoalest => min_of l end.
Definition stat_cell (a : simple_algorithm) (l : list Q) : cell :=
  match l with [] => None | _ => Some (round3 (stat_of a l)) end.

Lemma mean_cell_stat l : mean_cell l (stat_cell Mean l).
Proof.
  destruct l as [|x l]; [left; done|]. right. exists (mean_of (x :: l)), (round3 (mean_of (x :: l))).
  split; [by apply mean_of_spec|]. split; [apply round3_spec|done].
Qed.
Lemma least_cell_stat l : least_cell l (stat_cell Shoalest l).
Proof.
  destruct l as [|x l]; [left; done|]. right. exists (min_of (x :: l)), (round3 (min_of (x :: l))).
  split; [by apply min_of_spec|]. split; [apply round3_spec|done].
Qed.

Lemma stat_cell_perm a l l' : l ≡ₚ l' -> stat_cell a l = stat_cell a l'.
Proof.
  intros H. unfold stat_cell. destruct l as [|x l], l' as [|x' l'].
  - done.
  - by apply Permutation_nil in H.
  - symmetry in H. by apply Permutation_nil in H.
  - f_equal. destruct a; simpl stat_of.
    + by rewrite (mean_of_perm _ _ H).
    + apply round3_proper. eapply is_min_unique; [by apply min_of_spec|].
      eapply is_min_perm; [symmetry; exact H|]. by apply min_of_spec.
Qed.

Lemma written_full (g b : arr) (n : nat) v idx f (h : nat -> nat -> cell) (w : cell -> cell) :
  g = nd_full n n v -> written g b idx f ->
  (forall row col, (row < n)%nat -> (col < n)%nat ->
     h row col = w (if decide (Z.of_nat (row * n + col) ∈ idx) then f (Z.of_nat (row * n + col)) else v)) ->
  nd_map w b = nd_init n n h.
Proof.
  intros -> (Hw & Hr & Hc & Hl) Hh. cbn in Hr, Hc.
  apply nd_ext.
  - by apply nd_map_wf.
  - apply nd_init_wf.
  - done.
  - done.
  - intros i j Hi Hj. cbn in Hi, Hj. rewrite nd_get_map, nd_get_init by congruence.
    rewrite nd_get_in by done. rewrite Hl, Hc, Hh by congruence. destruct (decide _); [done|].
    cbn. rewrite lookup_replicate_2; [done|]. apply flat_lt; congruence.
Qed.
Lemma nd_map_id {A} (a : nd A) : nd_map (fun x => x) a = a.
Proof. destruct a. unfold nd_map. simpl. f_equal. apply map_id. Qed.

Definition depth_spec (t : tile) (a : simple_algorithm) (r : Z) (f : point -> Q) (d : list point) : arr :=
  nd_init (ncell t r) (ncell t r) (fun row col => stat_cell a (map f (tile_cell t r row col d))).
Definition density_spec (t : tile) (r : Z) (d : list point) : arr :=
  nd_init (ncell t r) (ncell t r) (fun row col => Some (qnat (length (tile_cell t r row col d)))).

Section fresh.
  Context (e : env) (t : tile) (r : Z) (d : list point).
  Context (Hs : 0 < t_size t) (Hr : 0 < r) (Hd : Forall (in_tile t) d).
  Let n := ncell t r.
  Let idx := map (cellno t r) d.

  Lemma idx_range : Forall (fun k => 0 <= k < Z.of_nat (n * n)) idx.
  Proof. by apply cellno_all. Qed.
  Lemma idx_len (f : point -> Q) : length (map f d) = length idx.
  Proof. unfold idx. by rewrite !map_length. Qed.

  Lemma written_stat_mean f b :
    written (nd_full n n None) b idx (fun k => Some (mean_of (group_of idx (map f d) k))) ->
    arr_round3 b = depth_spec t Mean r f d.
  Proof.
    intros H. eapply (written_full _ _ n None); [done|exact H|]. intros row col Hrow Hcol.
    rewrite <- (filter_cellno t r row col d) by done. fold n.
    set (k := Z.of_nat (row * n + col)).
    assert (Hg : group_of idx (map f d) k = map f (filter (fun p => cellno t r p = k) d))
      by (unfold idx; apply group_of_map).
    rewrite Hg.
    destruct (decide (k ∈ idx)) as [Hin|Hin].
    - unfold idx in Hin. rewrite elem_map_filter in Hin.
      destruct (filter _ d) as [|p l]; [done|]. done.
    - unfold idx in Hin. rewrite elem_map_filter in Hin. destruct (filter _ d); [done|]. by destruct Hin.
  Qed.
  Lemma written_stat_min s f b :
    sorting_perm idx s ->
    written (nd_full n n None) b idx (fun k => Some (min_of (sorted_group_of s idx (map f d) k))) ->
    arr_round3 b = depth_spec t Shoalest r f d.
  Proof.
    intros HS H. eapply (written_full _ _ n None); [done|exact H|]. intros row col Hrow Hcol.
    rewrite <- (filter_cellno t r row col d) by done. fold n.
    set (k := Z.of_nat (row * n + col)).
    pose proof (sorted_group_perm s idx HS (map f d) (idx_len f) k) as HP.
    assert (Hg : group_of idx (map f d) k = map f (filter (fun p => cellno t r p = k) d))
      by (unfold idx; apply group_of_map).
    rewrite Hg in HP. rewrite <- (stat_cell_perm Shoalest _ _ HP).
    destruct (decide (k ∈ idx)) as [Hin|Hin].
    - pose proof (sorted_group_nonempty s idx HS (map f d) (idx_len f) k Hin) as Hne.
      unfold stat_cell. destruct (sorted_group_of _ _ _ _); done.
    - unfold idx in Hin. rewrite elem_map_filter in Hin.
      destruct (filter (fun p => cellno t r p = k) d); [|by destruct Hin].
      apply Permutation_nil_r in HP. by rewrite HP.
  Qed.
  Lemma written_density b :
    written (nd_full n n zero_cell) b idx (fun k => Some (qnat (count_of idx k))) -> b = density_spec t r d.
  Proof.
    intros H. rewrite <- (nd_map_id b). eapply (written_full _ _ n zero_cell); [done|exact H|].
    intros row col Hrow Hcol.
    rewrite <- (filter_cellno t r row col d) by done. fold n. set (k := Z.of_nat (row * n + col)).
    assert (Hg : count_of idx k = length (filter (fun p => cellno t r p = k) d))
      by (unfold idx; apply count_of_map).
    rewrite Hg. destruct (decide (k ∈ idx)) as [Hin|Hin]; [done|].
    unfold idx in Hin. rewrite elem_map_filter in Hin. destruct (filter _ d); [done|]. by destruct Hin.
  Qed.
End fresh.

(** The gridding functions with an arbitrary sorting permutation. *)
Definition run_simple_with (s : list nat) (a : simple_algorithm) :=
  match a with Mean => np_grid_mean_with s | Shoalest => np_grid_shoalest_with s end.
Definition fresh_with (s : list nat) (e : env) (t : tile) (a : simple_algorithm) (r : Z) (d : list point) :=
  let n := ncell t r in
  run_simple_with s a (map pz d) (map (cellno t r) d) (nd_full n n None) (nd_full n n zero_cell)
    (opt_vals (has_tvu (e_dt e)) (map ptvu d)) (opt_vals (has_thu (e_dt e)) (map pthu d))
    (opt_grid (has_tvu (e_dt e)) n) (opt_grid (has_thu (e_dt e)) n).
Lemma fresh_out_with e t a r d : fresh_out e t a r d = fresh_with (argsort (map (cellno t r) d)) e t a r d.
Proof. by destruct a. Qed.

Lemma fresh_with_spec s e t a r d o :
  0 < t_size t -> 0 < r -> Forall (in_tile t) d -> sorting_perm (map (cellno t r) d) s ->
  fresh_with s e t a r d = Ok o ->
  arr_round3 (o_depth o) = depth_spec t a r pz d /\ o_density o = density_spec t r d /\
  (a = Mean -> has_tvu (e_dt e) = true -> arr_round3 (o_tvu o) = depth_spec t Mean r ptvu d) /\
  (a = Mean -> has_thu (e_dt e) = true -> arr_round3 (o_thu o) = depth_spec t Mean r pthu d).
Proof.
  intros Hs Hr Hd HS. unfold fresh_with. set (n := ncell t r). set (idx := map (cellno t r) d) in *.
  assert (HF : Forall (fun k => 0 <= k < Z.of_nat (n * n)) idx) by (by apply cellno_all).
  assert (Hl : forall f : point -> Q, length (map f d) = length idx) by (intros; unfold idx; by rewrite !map_length).
  destruct a; simpl run_simple_with.
  - destruct (np_grid_mean_with_spec s idx n n HS HF
      (map pz d) (nd_full n n None) (nd_full n n zero_cell)
      (opt_vals (has_tvu (e_dt e)) (map ptvu d)) (opt_vals (has_thu (e_dt e)) (map pthu d))
      (opt_grid (has_tvu (e_dt e)) n) (opt_grid (has_thu (e_dt e)) n)) as (o' & Ho & H1 & H2 & H3 & H3' & H4 & H4');
      [by rewrite Hl|apply full_shape|apply full_shape|].
    intros Heq. rewrite Ho in Heq. injection Heq as ->.
    assert (Hn : n <> 0%nat) by (pose proof (ncell_pos t r Hs Hr); unfold n; lia).
    split; [by apply written_stat_mean|]. split; [by apply written_density|].
    assert (Hnil : forall f, idx = [] -> arr_round3 (nd_full n n None) = depth_spec t Mean r f d).
    { intros f Hi. rewrite <- (nd_map_id (depth_spec t Mean r f d)). rewrite round3_full.
      apply map_eq_nil in Hi as ->. rewrite nd_map_id. unfold depth_spec. fold n.
      apply nd_ext; [apply nd_full_wf|apply nd_init_wf|done|done|].
      intros i j Hi Hj. rewrite nd_get_full, nd_get_init by done. done. }
    split; intros _ Hb; rewrite Hb in *; cbn [opt_vals opt_grid] in *.
    + destruct (decide (idx = [])) as [Hi|Hi].
      * rewrite <- (Hnil ptvu Hi). f_equal. apply H3'.
        unfold idx in Hi. by apply map_eq_nil in Hi as ->.
      * apply written_stat_mean; [done|done|done|]. apply H3; [apply Hl|apply full_shape|done|done|done].
    + destruct (decide (idx = [])) as [Hi|Hi].
      * rewrite <- (Hnil pthu Hi). f_equal. apply H4'.
        unfold idx in Hi. by apply map_eq_nil in Hi as ->.
      * apply written_stat_mean; [done|done|done|]. apply H4; [apply Hl|apply full_shape|done|done|done].
  - intros Heq. apply (np_grid_shoalest_with_depth s idx n n HS HF) in Heq as [H1 H2];
      [|apply Hl|apply full_shape|apply full_shape].
    split; [by eapply written_stat_min|]. split; [by apply written_density|]. done.
Qed.
Lemma fresh_out_spec e t a r d o :
  0 < t_size t -> 0 < r -> Forall (in_tile t) d -> fresh_out e t a r d = Ok o ->
  arr_round3 (o_depth o) = depth_spec t a r pz d /\ o_density o = density_spec t r d /\
  (a = Mean -> has_tvu (e_dt e) = true -> arr_round3 (o_tvu o) = depth_spec t Mean r ptvu d) /\
  (a = Mean -> has_thu (e_dt e) = true -> arr_round3 (o_thu o) = depth_spec t Mean r pthu d).
Proof. intros Hs Hr Hd. rewrite fresh_out_with. apply fresh_with_spec; [done|done|done|apply argsort_sorting_perm]. Qed.
