(** Gridding of a tile. *)
From Coq Require Import Lqa.
From Verif Require Import Py Nd Numpy Point Bin Algorithms Tile Spec
  PyFacts NdFacts NumpyFacts AlgFacts BinFacts TileFacts.
Open Scope Z_scope.
Ltac Zify.zify_post_hook ::= Z.div_mod_to_equations.

Lemma dset_dset {K V} `{EqDecision K} (d : dict K V) k v w : dset (dset d k v) k w = dset d k w.
Proof.
  induction d as [|[k' v'] d IH]; csimpl.
  - by rewrite decide_True.
  - destruct (decide (k = k')) as [->|Hne]; csimpl.
    + by rewrite decide_True.
    + rewrite decide_False by done. by rewrite IH.
Qed.

(** ** Resolutions are positive *)
Lemma is_power_of_two_pos q : is_power_of_two q = true -> (0 < q)%Q.
Proof.
  unfold is_power_of_two. destruct (Qle_bool q 1) eqn:E1; simpl.
  - destruct (Qeq_bool q 1) eqn:E2.
    + apply Qeq_bool_iff in E2. intros _. rewrite E2. lra.
    + destruct (Qle_bool q 0) eqn:E3; simpl; [done|]. intros _.
      apply Qnot_le_lt. intros H. apply Qle_bool_iff in H. congruence.
  - intros _. assert (~ (q <= 1)%Q) by (intros H; apply Qle_bool_iff in H; congruence). lra.
Qed.
Lemma metres_pos e r : (0 < metres e r)%Q -> 0 < r.
Proof. unfold metres, Qlt. simpl. lia. Qed.
Lemma pow2_res_pos e r : is_power_of_two (metres e r) = true -> 0 < r.
Proof. intros H. eapply metres_pos, is_power_of_two_pos, H. Qed.

(** ** Good tiles *)
Definition alg_keys (e : env) (dk : string) (alg : string) : list string :=
  dkeys (initial_layers (e_dt e) dk true alg 0 0).
Definition known_alg (alg : string) : Prop := alg = "mean" \/ alg = "shoalest" \/ alg = "cube".

Definition layers_ok (e : env) (t : tile) (r : Z) (alg : string) (l : dict string arr) : Prop :=
  (forall name, name ∈ alg_keys e (t_depth_key t) alg -> is_Some (dget l name)) /\
  (forall name a, dget l name = Some a -> shape_is a (ncell t r) (ncell t r)).

Definition tile_edges (lo r : Z) (n : nat) : list Z := uniform lo r (S n).

Record good (e : env) (t : tile) : Prop := {
  g_rep : exists ct, tile_rep t ct;
  g_cache : cache_ok t;
  g_size : 0 < t_size t;
  g_in : Forall (in_tile t) (pts t);
  g_cells : forall r l, dget (t_cells t) r = Some l ->
    0 < r /\ is_Some (dget (t_indices t) r) /\
    dget (t_edges_x t) r = Some (tile_edges (t_min_x t) r (ncell t r)) /\
    dget (t_edges_y t) r = Some (tile_edges (t_min_y t) r (ncell t r)) /\
    exists alg, t_algorithm t = Some alg /\ known_alg alg /\ layers_ok e t r alg l }.

Lemma ncell_pos t r : 0 < t_size t -> 0 < r -> (0 < ncell t r)%nat.
Proof. intros. unfold ncell. pose proof (ceil_div_pos (t_size t) r). lia. Qed.

Lemma in_tile_rect t r p :
  0 < t_size t -> 0 < r -> in_tile t p ->
  in_rect (t_min_x t) (t_min_y t) r (ncell t r) (ncell t r) (xy_of p).
Proof.
  intros Hs Hr [Hx Hy]. unfold in_rect, xy_of. simpl.
  pose proof (ceil_div_pos (t_size t) r Hr Hs). pose proof (ceil_div_spec (t_size t) r Hr).
  unfold ncell. rewrite Z2Nat.id by lia. lia.
Qed.
Lemma cellno_range t r p :
  0 < t_size t -> 0 < r -> in_tile t p -> 0 <= cellno t r p < Z.of_nat (ncell t r * ncell t r).
Proof. intros Hs Hr Hp. apply cell_number_range; [done|]. by apply in_tile_rect. Qed.

Lemma tile_axis lo size r :
  0 < size -> 0 < r ->
  arange lo (lo + size) r = uniform lo r (Z.to_nat (ceil_div size r)) /\
  with_last_edge (arange lo (lo + size) r) r = Ok (tile_edges lo r (Z.to_nat (ceil_div size r))).
Proof.
  intros Hs Hr. rewrite arange_uniform. replace (lo + size - lo) with size by lia.
  split; [done|]. apply with_last_edge_uniform. pose proof (ceil_div_pos size r Hr Hs). lia.
Qed.

Lemma bin2d_tile t r d :
  0 < t_size t -> 0 < r -> Forall (in_tile t) d ->
  bin2d_with_indices (map xy_of d) (tile_edges (t_min_x t) r (ncell t r))
    (tile_edges (t_min_y t) r (ncell t r)) = Ok (map (cellno t r) d).
Proof.
  intros Hs Hr Hd. unfold tile_edges. rewrite bin2d_in.
  - by rewrite map_map.
  - done.
  - by apply ncell_pos.
  - by apply ncell_pos.
  - apply Forall_fmap. eapply Forall_impl; [done|]. intros p Hp. by apply in_tile_rect.
Qed.

Lemma cell_edges_tile t r :
  0 < t_size t -> 0 < r ->
  cell_edges (t_min_x t) (t_max_x t) r = Ok (tile_edges (t_min_x t) r (ncell t r)) /\
  cell_edges (t_min_y t) (t_max_y t) r = Ok (tile_edges (t_min_y t) r (ncell t r)).
Proof.
  intros Hs Hr. unfold cell_edges, t_max_x, t_max_y.
  by rewrite (proj2 (tile_axis _ _ _ Hs Hr)), (proj2 (tile_axis _ _ _ Hs Hr)).
Qed.

(** ** Initial and blanked layers *)
Definition blank_value (name : string) : cell :=
  if bool_decide (name ∈ ["density"; "hypothesis_count"]) then zero_cell else None.

Lemma depth_key_cases t : t_depth_key t = "depth" \/ t_depth_key t = "intensity".
Proof. unfold t_depth_key, depth_key_of. destruct (t_backscatter t); auto. Qed.

Lemma dkeys_dset_ext {K V} `{EqDecision K} (d d' : dict K V) k v v' :
  dkeys d = dkeys d' -> dkeys (dset d k v) = dkeys (dset d' k v').
Proof. intros H. by rewrite !dkeys_dset, H. Qed.
Lemma initial_layers_keys dt dk b alg n m n' m' :
  dkeys (initial_layers dt dk b alg n m) = dkeys (initial_layers dt dk b alg n' m').
Proof.
  unfold initial_layers. destruct (bool_decide _); [|destruct (bool_decide _)].
  - destruct (b && has_tvu dt), (b && has_thu dt); repeat apply dkeys_dset_ext; done.
  - repeat apply dkeys_dset_ext. done.
  - done.
Qed.

Lemma initial_layers_get dt dk b alg n m name a :
  dk = "depth" \/ dk = "intensity" ->
  dget (initial_layers dt dk b alg n m) name = Some a -> a = nd_full n m (blank_value name).
Proof.
  intros Hdk. unfold initial_layers, blank_value.
  destruct (bool_decide _); [|destruct (bool_decide _)]; [| |done].
  - destruct (b && has_tvu dt), (b && has_thu dt); rewrite ?dget_dset;
      repeat (case_decide; [subst; intros [= <-]; by destruct Hdk as [->| ->]|]); done.
  - rewrite !dget_dset.
    repeat (case_decide; [subst; intros [= <-]; by destruct Hdk as [->| ->]|]); done.
Qed.

Lemma initial_layers_ok e t alg r :
  layers_ok e t r alg (initial_layers (e_dt e) (t_depth_key t) true alg (ncell t r) (ncell t r)).
Proof.
  split.
  - intros name Hn. apply dget_is_Some. unfold alg_keys in Hn.
    by rewrite (initial_layers_keys _ _ _ _ _ _ 0 0).
  - intros name a Ha. apply initial_layers_get in Ha as ->; [|apply depth_key_cases].
    split; [apply nd_full_wf|done].
Qed.
Lemma blank_shape a n m v : shape_is a n m -> blank a v = nd_full n m v.
Proof. intros (_ & Hr & Hc). unfold blank. by rewrite Hr, Hc. Qed.

Lemma unc_fold_get ls (l : dict string arr) name :
  dget (foldl (fun acc (nv : string * cell) => match dget acc nv.1 with
                | Some a => dset acc nv.1 (blank a nv.2) | None => acc end) l ls) name =
  (fun a => foldl (fun a nv => if decide (name = nv.1) then blank a nv.2 else a) a ls) <$> dget l name.
Proof.
  revert l. induction ls as [|[k v] ls IH]; intros l.
  - simpl. by destruct (dget l name).
  - cbn [foldl]. rewrite IH. cbn [fst snd]. destruct (dget l k) as [a|] eqn:E.
    + rewrite dget_dset. case_decide as Hd; [subst; by rewrite E|]. by destruct (dget l name).
    + case_decide as Hd; [subst; by rewrite E|]. by destruct (dget l name).
Qed.

Definition unc_step (name : string) (a : arr) (nv : string * cell) : arr :=
  if decide (name = nv.1) then blank a nv.2 else a.
Lemma unc_step_shape name a nv n : shape_is a n n -> shape_is (unc_step name a nv) n n.
Proof.
  intros Ha. unfold unc_step. destruct (decide _); [|done]. rewrite (blank_shape a n n _ Ha).
  split; [apply nd_full_wf|done].
Qed.
Lemma unc_foldl_shape name ls a n : shape_is a n n -> shape_is (foldl (unc_step name) a ls) n n.
Proof. revert a. induction ls as [|nv ls IH]; intros a Ha; [done|]. cbn [foldl]. apply IH. by apply unc_step_shape. Qed.
Lemma unc_foldl_none name ls a : name ∉ ls.*1 -> foldl (unc_step name) a ls = a.
Proof.
  revert a. induction ls as [|nv ls IH]; intros a Ha; [done|]. cbn [foldl]. rewrite fmap_cons in Ha.
  apply not_elem_of_cons in Ha as [H1 H2]. rewrite IH by done. unfold unc_step. by rewrite decide_False.
Qed.
Lemma unc_foldl_some name ls a n v :
  shape_is a n n -> NoDup ls.*1 -> (name, v) ∈ ls -> foldl (unc_step name) a ls = nd_full n n v.
Proof.
  revert a. induction ls as [|nv ls IH]; intros a Ha Hnd Hin; [by apply elem_of_nil in Hin|].
  cbn [foldl]. rewrite fmap_cons in Hnd. apply NoDup_cons in Hnd as [H1 H2].
  apply elem_of_cons in Hin as [<-|Hin].
  - rewrite unc_foldl_none by done. unfold unc_step. rewrite decide_True by done. by apply blank_shape.
  - apply IH; [by apply unc_step_shape|done|done].
Qed.

Lemma unc_layers_values name v : (name, v) ∈ unc_layers -> v = blank_value name.
Proof.
  unfold unc_layers. rewrite !elem_of_cons, elem_of_nil. intros H.
  repeat (destruct H as [H|H]; [injection H as -> ->; reflexivity|]). done.
Qed.
Lemma unc_layers_NoDup : NoDup unc_layers.*1.
Proof. apply (bool_decide_unpack _). vm_compute. exact I. Qed.
Lemma unc_layers_not_depth dk :
  (dk = "depth" \/ dk = "intensity") -> dk ∉ unc_layers.*1 /\ "density" ∉ unc_layers.*1.
Proof. intros [-> | ->]; split; apply (bool_decide_unpack _); vm_compute; exact I. Qed.

Lemma blank_layers_ok dk l n :
  (dk = "depth" \/ dk = "intensity") ->
  is_Some (dget l dk) -> is_Some (dget l "density") ->
  (forall name a, dget l name = Some a -> shape_is a n n) ->
  exists l', blank_layers dk l = Ok l' /\
    (forall name, is_Some (dget l' name) <-> is_Some (dget l name)) /\
    (forall name a, dget l' name = Some a -> shape_is a n n) /\
    (forall name, name ∈ dk :: "density" :: unc_layers.*1 -> is_Some (dget l name) ->
       dget l' name = Some (nd_full n n (blank_value name))).
Proof.
  intros Hdk [d Hd] [k Hk] Hsh. unfold blank_layers. rewrite Hd. cbn [rofopt rbind].
  assert (Hne : dk <> "density") by (by destruct Hdk as [->| ->]).
  rewrite dget_dset_ne by congruence. rewrite Hk. cbn [rofopt rbind].
  eexists. split; [reflexivity|].
  pose proof (unc_layers_values) as Hvals. pose proof unc_layers_NoDup as Hnd.
  destruct (unc_layers_not_depth dk Hdk) as [Hn1 Hn2].
  generalize dependent unc_layers. intros ls Hvals Hnd Hn1 Hn2.
  assert (Hbv : blank_value dk = None) by (by destruct Hdk as [->| ->]).
  assert (Hbd : blank_value "density" = zero_cell) by done.
  generalize dependent "density"%string. intros dn Hk Hne Hn2 Hbd.
  set (l2 := dset (dset l dk (blank d None)) dn (blank k zero_cell)).
  assert (H2 : forall name, dget l2 name =
     (fun a => if decide (name = dn) then blank a zero_cell
               else if decide (name = dk) then blank a None else a) <$> dget l name).
  { intros name. unfold l2. rewrite !dget_dset. case_decide; [subst; by rewrite Hk|].
    case_decide; [subst; by rewrite Hd|]. by destruct (dget l name). }
  clearbody l2.
  assert (Hb : forall a v, shape_is a n n -> shape_is (blank a v) n n).
  { intros a v Ha. rewrite (blank_shape a n n v Ha). split; [apply nd_full_wf|done]. }
  assert (Hget : forall name, dget (foldl (fun acc (nv : string * cell) => match dget acc nv.1 with
                | Some a => dset acc nv.1 (blank a nv.2) | None => acc end) l2 ls) name =
     (fun a => foldl (unc_step name)
         (if decide (name = dn) then blank a zero_cell
               else if decide (name = dk) then blank a None else a) ls) <$> dget l name).
  { intros name. rewrite unc_fold_get, H2. by destruct (dget l name). }
  assert (Hstart : forall name a, shape_is a n n -> shape_is (if decide (name = dn) then blank a zero_cell
               else if decide (name = dk) then blank a None else a) n n).
  { intros name a Ha. destruct (decide (name = dn)); [by apply Hb|].
    destruct (decide (name = dk)); [by apply Hb|done]. }
  split; [|split].
  - intros name. rewrite Hget. by rewrite fmap_is_Some.
  - intros name a. rewrite Hget. intros (b & Hb' & ->)%fmap_Some.
    apply unc_foldl_shape, Hstart. by eapply Hsh.
  - intros name Hin [a Ha]. rewrite Hget, Ha. cbn [fmap option_fmap option_map]. f_equal.
    pose proof (Hsh _ _ Ha) as Hs.
    apply elem_of_cons in Hin as [->|Hin]; [|apply elem_of_cons in Hin as [->|Hin]].
    + rewrite unc_foldl_none by done. rewrite decide_False by congruence. rewrite decide_True by done.
      rewrite Hbv. by apply blank_shape.
    + rewrite unc_foldl_none by done. rewrite decide_True by done. rewrite Hbd. by apply blank_shape.
    + apply elem_of_list_fmap in Hin as ([nm v] & -> & Hin). cbn [fst]. rewrite <- (Hvals nm v Hin).
      apply unc_foldl_some; [by apply Hstart|done|done].
Qed.

Lemma dkeys_nil {K V} (k : K) : k ∈ dkeys (@nil (K * V)) <-> False.
Proof. apply elem_of_nil. Qed.
Lemma alg_keys_std e dk alg name : name ∈ alg_keys e dk alg -> name ∈ dk :: "density" :: unc_layers.*1.
Proof.
  assert (Hu : unc_layers.*1 = ["vertical_uncertainty"; "horizontal_uncertainty"; "hypothesis_count";
                                "total_uncertainty"; "hypothesis_ratio"]) by done.
  rewrite Hu, !elem_of_cons. unfold alg_keys, initial_layers.
  destruct (bool_decide _); [|destruct (bool_decide _)].
  - destruct (true && has_tvu (e_dt e)), (true && has_thu (e_dt e));
      rewrite ?elem_of_dkeys_dset, dkeys_nil; tauto.
  - rewrite ?elem_of_dkeys_dset, dkeys_nil; tauto.
  - rewrite dkeys_nil. tauto.
Qed.
Lemma alg_keys_depth e dk alg : known_alg alg -> dk ∈ alg_keys e dk alg /\ "density" ∈ alg_keys e dk alg.
Proof.
  intros H. unfold alg_keys, initial_layers.
  destruct H as [->|[->| ->]].
  - rewrite bool_decide_eq_true_2 by auto.
    destruct (true && has_tvu (e_dt e)), (true && has_thu (e_dt e)); rewrite ?elem_of_dkeys_dset; tauto.
  - rewrite bool_decide_eq_true_2 by auto.
    destruct (true && has_tvu (e_dt e)), (true && has_thu (e_dt e)); rewrite ?elem_of_dkeys_dset; tauto.
  - rewrite bool_decide_eq_false_2 by naive_solver. rewrite bool_decide_eq_true_2 by auto.
    rewrite ?elem_of_dkeys_dset; tauto.
Qed.

(** ** Preparation *)
Lemma fill_new_spec (t : tile) (r : Z) d idx :
  Forall2 (fun p i => i = -1 \/ i = cellno t r p) d idx ->
  fill_new idx (map (cellno t r) (mask_select (map (fun i => i =? -1) idx) d)) = map (cellno t r) d.
Proof.
  induction 1 as [|p i d idx Hpi H IH]; simpl; [done|].
  destruct (i =? -1) eqn:E; simpl.
  - by rewrite IH.
  - rewrite IH. f_equal. destruct Hpi as [->| ->]; done.
Qed.
Lemma no_new_spec (t : tile) (r : Z) d idx :
  Forall2 (fun p i => i = -1 \/ i = cellno t r p) d idx ->
  existsb id (map (fun i => i =? -1) idx) = false -> idx = map (cellno t r) d.
Proof.
  induction 1 as [|p i d idx Hpi H IH]; simpl; [done|].
  unfold id at 1. destruct (i =? -1) eqn:E; simpl; [done|]. intros HE. f_equal; [|by apply IH].
  destruct Hpi as [->| ->]; done.
Qed.
Lemma Forall_mask_select {A} (P : A -> Prop) m l : Forall P l -> Forall P (mask_select m l).
Proof. intros H. revert m. induction H; intros [|[] m]; simpl; try constructor; auto. Qed.

Lemma new_grid_eq e t r alg d :
  is_power_of_two (metres e r) = true -> 0 < t_size t -> t_data t = Some d ->
  new_grid e t r alg =
  Ok (set_layers (t <| t_edges_x := dset (t_edges_x t) r (tile_edges (t_min_x t) r (ncell t r)) |>
                    <| t_edges_y := dset (t_edges_y t) r (tile_edges (t_min_y t) r (ncell t r)) |>) r
        (initial_layers (e_dt e) (t_depth_key t) true alg (ncell t r) (ncell t r))).
Proof.
  intros Hp Hs Hd. pose proof (pow2_res_pos _ _ Hp) as Hr. unfold new_grid. rewrite Hp. simpl.
  unfold t_max_x, t_max_y.
  destruct (tile_axis (t_min_x t) (t_size t) r Hs Hr) as [Hx1 Hx2].
  destruct (tile_axis (t_min_y t) (t_size t) r Hs Hr) as [Hy1 Hy2].
  rewrite Hx2, Hy2. simpl. rewrite Hx1, Hy1, !uniform_length. rewrite bool_decide_eq_true_2 by (by rewrite Hd).
  done.
Qed.

Definition compat (e : env) (t : tile) (alg : string) : Prop :=
  t_cells t = [] \/
  exists alg0, t_algorithm t = Some alg0 /\
    alg_keys e (t_depth_key t) alg0 = alg_keys e (t_depth_key t) alg.

(** Everything of a tile except cells, edges, indices, algorithm and parameters. *)
Definition same_points (t t' : tile) : Prop :=
  same_frame t t' /\ t_data t' = t_data t /\ t_container t' = t_container t /\ t_changed t' = t_changed t.

Record prepared (e : env) (t t2 : tile) (alg : string) (r : Z) (l2 : dict string arr) : Prop := {
  pr_same : same_points t t2;
  pr_idx : t_indices t2 = dset (t_indices t) r (map (cellno t r) (pts t));
  pr_alg : t_algorithm t2 = Some alg;
  pr_ex : t_edges_x t2 = dset (t_edges_x t) r (tile_edges (t_min_x t) r (ncell t r)) \/
          (t_edges_x t2 = t_edges_x t /\ dget (t_edges_x t) r = Some (tile_edges (t_min_x t) r (ncell t r)));
  pr_ey : t_edges_y t2 = dset (t_edges_y t) r (tile_edges (t_min_y t) r (ncell t r)) \/
          (t_edges_y t2 = t_edges_y t /\ dget (t_edges_y t) r = Some (tile_edges (t_min_y t) r (ncell t r)));
  pr_cells : t_cells t2 = dset (t_cells t) r l2;
  pr_std : forall name, name ∈ alg_keys e (t_depth_key t) alg ->
             dget l2 name = Some (nd_full (ncell t r) (ncell t r) (blank_value name));
  pr_shape : forall name a, dget l2 name = Some a -> shape_is a (ncell t r) (ncell t r);
  pr_keys : forall name, is_Some (dget l2 name) ->
    name ∈ alg_keys e (t_depth_key t) alg \/ is_Some (dget (layers_at t r) name) }.

Lemma prepare_ok e t alg r gp d :
  good e t -> is_power_of_two (metres e r) = true -> compat e t alg -> known_alg alg ->
  t_data t = Some d ->
  exists t2 l2, prepare_grid e t alg r gp = Ok t2 /\ prepared e t t2 alg r l2.
Proof.
  intros HG Hp HC HA Hd. pose proof (pow2_res_pos _ _ Hp) as Hr.
  pose proof (g_size _ _ HG) as Hs. pose proof (g_in _ _ HG) as Hin.
  assert (Hpts : pts t = d) by (unfold pts; by rewrite Hd). rewrite Hpts in Hin.
  set (n := ncell t r). set (ex := tile_edges (t_min_x t) r n). set (ey := tile_edges (t_min_y t) r n).
  (* the tile after the optional new_grid *)
  assert (Hstep : exists t1 l1,
    (if negb (dmem (t_cells t) r) || negb (bool_decide (t_algorithm t = Some alg))
     then new_grid e (t <| t_algorithm := Some alg |> <| t_params := gp |>) r alg else Ok t) = Ok t1 /\
    same_points t t1 /\ t_indices t1 = t_indices t /\ t_algorithm t1 = Some alg /\
    (t_edges_x t1 = dset (t_edges_x t) r ex \/ (t_edges_x t1 = t_edges_x t /\ dget (t_edges_x t) r = Some ex)) /\
    (t_edges_y t1 = dset (t_edges_y t) r ey \/ (t_edges_y t1 = t_edges_y t /\ dget (t_edges_y t) r = Some ey)) /\
    dget (t_edges_x t1) r = Some ex /\ dget (t_edges_y t1) r = Some ey /\
    (forall l, dset (t_cells t1) r l = dset (t_cells t) r l) /\ dget (t_cells t1) r = Some l1 /\
    layers_ok e t r alg l1 /\
    (forall name, is_Some (dget l1 name) ->
       name ∈ alg_keys e (t_depth_key t) alg \/ is_Some (dget (layers_at t r) name)) /\
    (dget (t_indices t) r = None ->
       t_cells t1 = dset (t_cells t) r l1 /\
       forall name, name ∈ alg_keys e (t_depth_key t) alg -> dget l1 name = Some (nd_full n n (blank_value name)))).
  { destruct (negb (dmem (t_cells t) r) || negb (bool_decide (t_algorithm t = Some alg))) eqn:E.
    - rewrite (new_grid_eq _ _ _ _ d) by done.
      eexists _, _. split; [reflexivity|]. split; [done|]. split; [done|]. split; [done|].
      split; [left; reflexivity|]. split; [left; reflexivity|]. cbn.
      split; [by rewrite dget_dset_eq|]. split; [by rewrite dget_dset_eq|].
      split; [intros l; by rewrite dset_dset|]. split; [by rewrite dget_dset_eq|].
      split; [apply (initial_layers_ok e t alg r)|].
      split; [intros name Hn; left; unfold alg_keys; rewrite (initial_layers_keys _ _ _ _ 0 0 n n);
              apply dget_is_Some; exact Hn|].
      intros _. split; [done|].
      intros name Hname. unfold alg_keys in Hname.
      rewrite (initial_layers_keys _ _ _ _ 0 0 n n) in Hname. apply dget_is_Some in Hname as [a Ha].
      change (t_depth_key _) with (t_depth_key t). change (ncell _ r) with n. rewrite Ha. f_equal.
      eapply initial_layers_get; [apply depth_key_cases|exact Ha].
    - apply orb_false_iff in E as [E1 E2]. apply negb_false_iff in E1, E2.
      apply bool_decide_eq_true in E2. apply dmem_true, dget_is_Some in E1 as [l1 Hl1].
      destruct (g_cells _ _ HG r l1 Hl1) as (_ & Hidx & Hex & Hey & alg0 & Halg & _ & Hok).
      exists t, l1. split; [done|]. split; [done|]. split; [done|]. split; [done|].
      split; [right; done|]. split; [right; done|]. split; [done|]. split; [done|].
      split; [done|]. split; [done|]. split; [congruence|].
      split; [intros name Hn; right; unfold layers_at; by rewrite Hl1|].
      intros Hnone. rewrite Hnone in Hidx. by destruct Hidx. }
  destruct Hstep as (t1 & l1 & Ht1 & Hsame & Hi1 & Ha1 & Hex & Hey & Hgx & Hgy & Hcs & Hc1 & Hok & Hkeys1 & Hnew).
  unfold prepare_grid. rewrite Ht1. cbn [rbind]. rewrite Hgx, Hgy. cbn [rofopt rbind].
  pose proof Hsame as (Hf & Hd1 & Hct1 & Hch1).
  rewrite Hd1, Hd, Hi1. cbn [rofopt rbind].
  destruct (dget (t_indices t) r) as [idx|] eqn:Hidx.
  - assert (HF : Forall2 (fun p i => i = -1 \/ i = cellno t r p) d idx).
    { pose proof (g_cache _ _ HG r idx Hidx) as H. by rewrite Hpts in H. }
    assert (Hfill : (if existsb id (map (fun i => i =? -1) idx)
              then let* b := bin2d_with_indices (mask_select (map (fun i => i =? -1) idx) (map xy_of d)) ex ey in
                   Ok (fill_new idx b) else Ok idx) = Ok (map (cellno t r) d)).
    { destruct (existsb _ _) eqn:Eex.
      - rewrite mask_select_map. unfold ex, ey, n. rewrite bin2d_tile; [|done|done|by apply Forall_mask_select].
        simpl. by rewrite (fill_new_spec t r d idx HF).
      - by rewrite (no_new_spec t r d idx HF Eex). }
    rewrite Hfill. cbn [rbind].
    assert (Hla : layers_at t1 r = l1) by (unfold layers_at; by rewrite Hc1). rewrite Hla.
    assert (Hdk : t_depth_key t1 = t_depth_key t).
    { unfold t_depth_key. destruct Hf as (_ & _ & _ & ->). done. }
    destruct (alg_keys_depth e (t_depth_key t) alg HA) as [Hk1 Hk2].
    destruct (blank_layers_ok (t_depth_key t1) l1 n) as (l2 & Hl2 & Hsome & Hsh & Hstd).
    { apply depth_key_cases. }
    { rewrite Hdk. by apply Hok. }
    { by apply Hok. }
    { apply Hok. }
    rewrite Hl2. cbn [rbind]. eexists _, l2. split; [reflexivity|]. split; cbn.
    + split; [|split; [|split]]; [exact Hf|exact Hd1|exact Hct1|exact Hch1].
    + by rewrite Hpts.
    + done.
    + exact Hex.
    + exact Hey.
    + apply Hcs.
    + intros name Hname. apply Hstd; [|by apply Hok]. rewrite Hdk. by eapply alg_keys_std.
    + exact Hsh.
    + intros name Hn. apply Hkeys1. by apply Hsome.
  - destruct (Hnew eq_refl) as [Hcells Hstd]. unfold ex, ey, n. rewrite bin2d_tile by done. cbn [rbind].
    eexists _, l1. split; [reflexivity|]. split; cbn.
    + split; [|split; [|split]]; [exact Hf|exact Hd1|exact Hct1|exact Hch1].
    + by rewrite Hpts.
    + done.
    + exact Hex.
    + exact Hey.
    + done.
    + exact Hstd.
    + apply Hok.
    + exact Hkeys1.
Qed.

(** ** Running mean and shoalest *)
Definition alg_name (a : simple_algorithm) : string :=
  match a with Mean => "mean" | Shoalest => "shoalest" end.
Definition opt_vals (b : bool) (l : list Q) : list Q := if b then l else [].
Definition opt_grid (b : bool) (n : nat) : arr := if b then nd_full n n None else empty_arr.

(** The gridding function applied to exactly the points [d] on blank arrays. *)
Definition fresh_out (e : env) (t : tile) (a : simple_algorithm) (r : Z) (d : list point) : res gridded :=
  let n := ncell t r in
  run_simple a (map pz d) (map (cellno t r) d) (nd_full n n None) (nd_full n n zero_cell)
    (opt_vals (has_tvu (e_dt e)) (map ptvu d)) (opt_vals (has_thu (e_dt e)) (map pthu d))
    (opt_grid (has_tvu (e_dt e)) n) (opt_grid (has_thu (e_dt e)) n).

Lemma merge_sort_q_perm l : merge_sort q_le l ≡ₚ l.
Proof. apply merge_sort_Permutation. Qed.

Lemma searchsorted_found (l : list Q) (m : Q) :
  m ∈ l -> (searchsorted_left_q (merge_sort q_le l) m < length l)%nat.
Proof.
  intros Hm. assert (Hl : length (merge_sort q_le l) = length l) by (by rewrite merge_sort_q_perm).
  pose proof (searchsorted_left_q_le (merge_sort q_le l) m) as Hle.
  destruct (decide (searchsorted_left_q (merge_sort q_le l) m = length l)) as [E|]; [|lia].
  exfalso. assert (Hin : m ∈ merge_sort q_le l) by (by rewrite merge_sort_q_perm).
  apply elem_of_list_lookup in Hin as [i Hi].
  assert (Hlt : (i < length l)%nat) by (rewrite <- Hl; by eapply lookup_lt_Some).
  assert (Hc : (m < m)%Q) by (eapply searchsorted_left_q_before; [|exact Hi]; lia). lra.
Qed.

Lemma foldl_qmin_in xs : forall x, foldl qmin x xs ∈ x :: xs.
Proof.
  induction xs as [|y xs IH]; intros x; simpl; [left|].
  specialize (IH (qmin x y)). apply elem_of_cons in IH as [->|IH]; [|by right; right].
  destruct (qmin_spec x y) as (_ & _ & [->| ->]); [left|right; left].
Qed.
Lemma min_of_in l : l <> [] -> min_of l ∈ l.
Proof. destruct l as [|x xs]; [done|]. intros _. apply foldl_qmin_in. Qed.

Lemma group_of_subset {V} idx (vals : list V) k v : v ∈ group_of idx vals k -> v ∈ vals.
Proof.
  unfold group_of, vals_at. intros (p & -> & Hp)%elem_of_list_fmap.
  apply elem_of_list_filter in Hp as [_ Hp]. destruct p. by eapply elem_of_zip_r.
Qed.

Lemma shoalest_unc_ok s idx rows cols g depth vals (grid : arr) :
  sorting_perm idx s -> Forall (fun k => 0 <= k < Z.of_nat (rows * cols)) idx ->
  cell_groups s idx rows cols = Ok g -> length depth = length idx -> length vals = length idx ->
  exists a, scatter_shoalest_unc g depth (reduceat qmin (take_idx depth s) (gr_idx g)) vals grid = Ok a.
Proof.
  intros Hs Hr Hg Hl Hlv. rewrite (cell_groups_eq s idx rows cols Hs Hr) in Hg. injection Hg as <-.
  cbn [gr_idx]. rewrite (reduceat_eq s idx Hs depth Hl qmin 0%Q).
  unfold scatter_shoalest_unc. rewrite map_map.
  destruct (rmap _ _) as [v|x] eqn:E; [eexists; reflexivity|]. exfalso.
  assert (Hall : Forall (fun i => is_Some (vals !! i))
     (map (fun k => searchsorted_left_q (merge_sort q_le depth) (min_of (sorted_group_of s idx depth k))) (np_unique idx))).
  { apply Forall_forall. intros i (k & -> & Hk)%elem_of_list_fmap.
    apply lookup_lt_is_Some. rewrite Hlv, <- Hl. apply searchsorted_found.
    rewrite elem_of_np_unique in Hk.
    assert (Hne := sorted_group_nonempty s idx Hs depth Hl k Hk).
    apply min_of_in in Hne. eapply group_of_subset. eapply elem_of_Permutation_proper; [|exact Hne].
    symmetry. apply (sorted_group_perm s idx Hs depth Hl). }
  assert (Hok : exists v, rmap (fun i => rofopt (vals !! i) IndexError)
     (map (fun k => searchsorted_left_q (merge_sort q_le depth) (min_of (sorted_group_of s idx depth k))) (np_unique idx)) = Ok v).
  { clear E. revert Hall. generalize (map (fun k => searchsorted_left_q (merge_sort q_le depth)
       (min_of (sorted_group_of s idx depth k))) (np_unique idx)).
    induction l as [|i l IH]; intros HF; [eexists; reflexivity|].
    inversion HF as [|? ? [v Hv] HF']; subst. destruct (IH HF') as [vs Hvs].
    simpl. rewrite Hv. simpl. rewrite Hvs. eexists; reflexivity. }
  destruct Hok as [v Hv]. unfold min_of in Hv. rewrite Hv in E. done.
Qed.

Lemma np_grid_shoalest_with_ok s idx rows cols depth (grid density : arr) tvu thu (tvug thug : arr) :
  sorting_perm idx s -> Forall (fun k => 0 <= k < Z.of_nat (rows * cols)) idx ->
  length depth = length idx -> shape_is grid rows cols ->
  (length tvu = length idx \/ tvu = []) -> (length thu = length idx \/ thu = []) ->
  exists out, np_grid_shoalest_with s depth idx grid density tvu thu tvug thug = Ok out.
Proof.
  intros Hs Hr Hl (Hw & Hgr & Hgc) Htv Hth. unfold np_grid_shoalest_with. rewrite Hgr, Hgc.
  destruct (cell_groups s idx rows cols) as [g|e] eqn:Hg.
  2: { by rewrite (cell_groups_eq s idx rows cols Hs Hr) in Hg. }
  simpl.
  assert (H : forall u (ug : arr), length u = length idx \/ u = [] ->
    exists a, (if unc_enabled u ug
               then scatter_shoalest_unc g depth (reduceat qmin (take_idx depth s) (gr_idx g)) u ug
               else Ok ug) = Ok a).
  { intros u ug [Hu| ->]; [|eexists; reflexivity].
    destruct (unc_enabled u ug); [|eexists; reflexivity]. by eapply shoalest_unc_ok. }
  destruct (H tvu tvug Htv) as [a ->]. destruct (H thu thug Hth) as [b ->]. simpl. eexists. reflexivity.
Qed.

Lemma cellno_all t r d :
  0 < t_size t -> 0 < r -> Forall (in_tile t) d ->
  Forall (fun k => 0 <= k < Z.of_nat (ncell t r * ncell t r)) (map (cellno t r) d).
Proof.
  intros. apply Forall_fmap. eapply Forall_impl; [done|]. intros p Hp. by apply cellno_range.
Qed.

Lemma full_shape {A} n (v : A) : shape_is (nd_full n n v) n n.
Proof. split; [apply nd_full_wf|done]. Qed.

Lemma fresh_out_ok e t a r d :
  0 < t_size t -> 0 < r -> Forall (in_tile t) d -> exists o, fresh_out e t a r d = Ok o.
Proof.
  intros Hs Hr Hd. unfold fresh_out. set (n := ncell t r). set (idx := map (cellno t r) d).
  assert (HF : Forall (fun k => 0 <= k < Z.of_nat (n * n)) idx) by (by apply cellno_all).
  assert (Hl : forall f : point -> Q, length (map f d) = length idx) by (intros; unfold idx; by rewrite !map_length).
  destruct a; simpl.
  - unfold np_grid_mean. destruct (np_grid_mean_with_spec (argsort idx) idx n n (argsort_sorting_perm idx) HF
      (map pz d) (nd_full n n None) (nd_full n n zero_cell)
      (opt_vals (has_tvu (e_dt e)) (map ptvu d)) (opt_vals (has_thu (e_dt e)) (map pthu d))
      (opt_grid (has_tvu (e_dt e)) n) (opt_grid (has_thu (e_dt e)) n)) as (o & Ho & _);
      [by rewrite Hl|apply full_shape|apply full_shape|]. eauto.
  - unfold np_grid_shoalest. eapply np_grid_shoalest_with_ok; [apply argsort_sorting_perm|exact HF| | | |].
    + by rewrite Hl.
    + apply full_shape.
    + destruct (has_tvu (e_dt e)); simpl; [left; by rewrite Hl|by right].
    + destruct (has_thu (e_dt e)); simpl; [left; by rewrite Hl|by right].
Qed.

Lemma unc_key_present e dk a :
  (has_tvu (e_dt e) = true -> "vertical_uncertainty" ∈ alg_keys e dk (alg_name a)) /\
  (has_thu (e_dt e) = true -> "horizontal_uncertainty" ∈ alg_keys e dk (alg_name a)).
Proof.
  unfold alg_keys, initial_layers.
  rewrite bool_decide_eq_true_2 by (destruct a; auto).
  split; intros ->; simpl.
  - destruct (has_thu (e_dt e)); rewrite ?elem_of_dkeys_dset; auto.
  - destruct (has_tvu (e_dt e)); rewrite ?elem_of_dkeys_dset; auto.
Qed.

Lemma round3_full n : arr_round3 (nd_full n n None) = nd_full n n None.
Proof. unfold arr_round3, nd_map, nd_full. simpl. f_equal. apply (fmap_replicate (option_map round3)). Qed.

(** Layers written by a run: named layers from [o], the rest from [l]. *)
Definition simple_layers (e : env) (dk : string) (o : gridded) (l l' : dict string arr) : Prop :=
  dget l' dk = Some (arr_round3 (o_depth o)) /\
  dget l' "density" = Some (o_density o) /\
  (has_tvu (e_dt e) = true -> dget l' "vertical_uncertainty" = Some (arr_round3 (o_tvu o))) /\
  (has_thu (e_dt e) = true -> dget l' "horizontal_uncertainty" = Some (arr_round3 (o_thu o))) /\
  (forall name, name <> dk -> name <> "density" ->
     (has_tvu (e_dt e) = true -> name <> "vertical_uncertainty") ->
     (has_thu (e_dt e) = true -> name <> "horizontal_uncertainty") -> dget l' name = dget l name).

Lemma fresh_out_nil e t a r o :
  0 < t_size t -> 0 < r -> fresh_out e t a r [] = Ok o ->
  (has_tvu (e_dt e) = true -> o_tvu o = nd_full (ncell t r) (ncell t r) None) /\
  (has_thu (e_dt e) = true -> o_thu o = nd_full (ncell t r) (ncell t r) None).
Proof.
  intros Hs Hr. unfold fresh_out. simpl. intros Ho.
  destruct a; simpl in Ho; unfold np_grid_mean, np_grid_mean_with, np_grid_shoalest, np_grid_shoalest_with in Ho;
    apply rbind_Ok in Ho as (g & Hg & Ho); destruct (has_tvu (e_dt e)), (has_thu (e_dt e)); simpl in Ho;
    injection Ho as <-; done.
Qed.

Lemma round_if_get c l name a :
  (c = false -> dget l name = Some (arr_round3 a)) -> dget (round_if c l name a) name = Some (arr_round3 a).
Proof. unfold round_if. destruct c; [by rewrite dget_dset_eq|auto]. Qed.
Lemma round_if_other c l name a k : k <> name \/ c = false -> dget (round_if c l name a) k = dget l k.
Proof. unfold round_if. intros [H| ->]; [|done]. destruct c; [by rewrite dget_dset_ne|done]. Qed.

Lemma run_simple_ok e a t t2 r l2 d :
  good e t -> is_power_of_two (metres e r) = true -> t_data t = Some d ->
  prepared e t t2 (alg_name a) r l2 ->
  exists o l', fresh_out e t a r d = Ok o /\ run_simple_grid e a t2 r = Ok (set_layers t2 r l') /\
    simple_layers e (t_depth_key t) o l2 l'.
Proof.
  intros HG Hp Hd HP. pose proof (pow2_res_pos _ _ Hp) as Hr.
  pose proof (g_size _ _ HG) as Hs. pose proof (g_in _ _ HG) as Hin.
  assert (Hpts : pts t = d) by (unfold pts; by rewrite Hd). rewrite Hpts in Hin.
  destruct (fresh_out_ok e t a r d Hs Hr Hin) as [o Ho].
  destruct HP as [(Hf & Hd2 & _ & _) Hidx _ _ _ Hcells Hstd Hsh _].
  assert (Hdk : t_depth_key t2 = t_depth_key t).
  { unfold t_depth_key. destruct Hf as (_ & _ & _ & ->). done. }
  assert (Hla : layers_at t2 r = l2) by (unfold layers_at; by rewrite Hcells, dget_dset_eq).
  assert (HA : known_alg (alg_name a)) by (destruct a; [left|right; left]; done).
  destruct (alg_keys_depth e (t_depth_key t) _ HA) as [Hk1 Hk2].
  destruct (unc_key_present e (t_depth_key t) a) as [Hk3 Hk4].
  unfold run_simple_grid. rewrite Hd2, Hd, Hla, Hidx, dget_dset_eq, Hdk, Hpts.
  rewrite (Hstd _ Hk1), (Hstd _ Hk2).
  set (n := ncell t r) in *. set (idx := map (cellno t r) d) in *.
  assert (Htv : unc_input (has_tvu (e_dt e)) l2 "vertical_uncertainty" (map ptvu d) =
     Ok (opt_vals (has_tvu (e_dt e)) (map ptvu d), opt_grid (has_tvu (e_dt e)) n)).
  { unfold unc_input. destruct (has_tvu (e_dt e)); simpl; [|done]. by rewrite (Hstd _ (Hk3 eq_refl)). }
  assert (Hth : unc_input (has_thu (e_dt e)) l2 "horizontal_uncertainty" (map pthu d) =
     Ok (opt_vals (has_thu (e_dt e)) (map pthu d), opt_grid (has_thu (e_dt e)) n)).
  { unfold unc_input. destruct (has_thu (e_dt e)); simpl; [|done]. by rewrite (Hstd _ (Hk4 eq_refl)). }
  rewrite Htv, Hth. cbn [rbind rofopt fst snd].
  assert (Hbv : blank_value (t_depth_key t) = None) by (destruct (depth_key_cases t) as [->| ->]; done).
  rewrite Hbv. change (blank_value "density") with zero_cell.
  unfold fresh_out in Ho. fold n in Ho. fold idx in Ho. rewrite Ho. cbn [rbind].
  exists o. eexists. split; [unfold fresh_out; fold n idx; exact Ho|]. split; [reflexivity|].
  assert (Hne1 : t_depth_key t <> "density") by (by destruct (depth_key_cases t) as [->| ->]).
  assert (Hne2 : t_depth_key t <> "vertical_uncertainty") by (by destruct (depth_key_cases t) as [->| ->]).
  assert (Hne3 : t_depth_key t <> "horizontal_uncertainty") by (by destruct (depth_key_cases t) as [->| ->]).
  assert (Hnil : d = [] -> (has_tvu (e_dt e) = true -> o_tvu o = nd_full n n None) /\
                           (has_thu (e_dt e) = true -> o_thu o = nd_full n n None)).
  { intros ->. eapply fresh_out_nil; [exact Hs|exact Hr|exact Ho]. }
  assert (Hb : forall b (f : point -> Q), (0 <? length (opt_vals b (map f d)))%nat = false -> b = true -> d = []).
  { intros b f Hb ->. simpl in Hb. rewrite map_length in Hb. destruct d; [done|]. done. }
  assert (Hb0 : forall b (f : point -> Q), b = false -> (0 <? length (opt_vals b (map f d)))%nat = false)
    by (intros b f ->; done).
  set (ctv := (0 <? length (opt_vals (has_tvu (e_dt e)) (map ptvu d)))%nat).
  set (cth := (0 <? length (opt_vals (has_thu (e_dt e)) (map pthu d)))%nat).
  pose proof (Hb _ ptvu : ctv = false -> _) as Hbt. pose proof (Hb _ pthu : cth = false -> _) as Hbh.
  pose proof (Hb0 (has_tvu (e_dt e)) ptvu : _ -> ctv = false) as Ht0.
  pose proof (Hb0 (has_thu (e_dt e)) pthu : _ -> cth = false) as Hh0.
  clearbody ctv cth. clear Hb Hb0.
  set (l0 := dset (dset l2 (t_depth_key t) (arr_round3 (o_depth o))) "density" (o_density o)).
  assert (Hl0 : forall name, name <> t_depth_key t -> name <> "density" -> dget l0 name = dget l2 name).
  { intros name H1 H2. unfold l0. by rewrite !dget_dset_ne. }
  split; [|split; [|split; [|split]]].
  - rewrite !round_if_other by (by left). unfold l0. by rewrite dget_dset_ne, dget_dset_eq.
  - rewrite !round_if_other by (by left). unfold l0. by rewrite dget_dset_eq.
  - intros Htt. rewrite round_if_other by (by left). apply round_if_get. intros Hc.
    rewrite Hl0 by congruence. rewrite (Hstd _ (Hk3 Htt)).
    rewrite (proj1 (Hnil (Hbt Hc Htt)) Htt). by rewrite round3_full.
  - intros Htt. apply round_if_get. intros Hc. rewrite round_if_other by (by left).
    rewrite Hl0 by congruence. rewrite (Hstd _ (Hk4 Htt)).
    rewrite (proj2 (Hnil (Hbh Hc Htt)) Htt). by rewrite round3_full.
  - intros name H1 H2 H3 H4. rewrite !round_if_other; [by apply Hl0| |].
    + destruct (has_tvu (e_dt e)); [left; by apply H3|right; by apply Ht0].
    + destruct (has_thu (e_dt e)); [left; by apply H4|right; by apply Hh0].
Qed.
