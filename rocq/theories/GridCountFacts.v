(** Populated cells, coverage and values over the tiles of a grid. *)
From Coq Require Import Lqa.
From Verif Require Import Py Nd Numpy Point Bin Algorithms Tile Time Meta Disk Grid GridRun GridQuery GridOps Spec TileExec GridExec.
From Verif Require Import PyFacts NdFacts NumpyFacts AlgFacts BinFacts TileFacts TileGridFacts TileSpecFacts TileRunFacts TileHistFacts TilePropFacts TileQueryFacts.
From Verif Require Import GridBaseFacts GridPlaceFacts GridInvFacts GridRootFacts GridEvolveFacts GridSrFacts GridPropFacts GridHistFacts GridRunFacts GridCleanFacts GridUpdateFacts GridDensityFacts GridReadFacts.
Open Scope Z_scope.

(** ** The first layer of every resolution is the depth (intensity) layer *)
Definition depthish (k : string) : Prop := k = "depth" \/ k = "intensity".
Definition head_ok (dk : string) (l : dict string arr) : Prop :=
  (exists a rest, l = (dk, a) :: rest) /\ forall k, k ∈ dkeys l -> depthish k -> k = dk.

Lemma head_dset dk l k a : head_ok dk l -> (depthish k -> k = dk) -> head_ok dk (dset l k a).
Proof.
  intros [(a0 & rest & ->) H] Hk. split.
  - cbn. destruct (decide (k = dk)); by eexists _, _.
  - intros k' Hin. apply elem_of_dkeys_dset in Hin as [->|Hin]; [done|]. by apply H.
Qed.
Lemma head_ddel dk l k : head_ok dk l -> k <> dk -> head_ok dk (ddel l k).
Proof.
  intros [(a0 & rest & ->) H] Hk. split.
  - unfold ddel. rewrite filter_cons_True by (cbn; congruence). by eexists _, _.
  - intros k' Hin. apply H. unfold dkeys, ddel in *. apply elem_of_list_fmap in Hin as (kv & -> & Hkv).
    apply elem_of_list_filter in Hkv as [_ Hkv]. apply elem_of_list_fmap. by exists kv.
Qed.
Lemma slope_ne b : depth_key_of b <> "x_slope" /\ depth_key_of b <> "y_slope".
Proof. by destruct b. Qed.
Lemma head_clear b l : head_ok (depth_key_of b) l -> head_ok (depth_key_of b) (clear_temp_layers l).
Proof. intros H. unfold clear_temp_layers. destruct (slope_ne b). apply head_ddel; [apply head_ddel; [done|congruence]|congruence]. Qed.
Lemma head_initial dt b alg rows cols : alg ∈ ["mean"; "shoalest"; "cube"] -> head_ok (depth_key_of b) (initial_layers dt (depth_key_of b) true alg rows cols).
Proof.
  intros Ha. assert (H0 : forall a, head_ok (depth_key_of b) [(depth_key_of b, a)]).
  { intros a. split; [by eexists _, _|]. intros k Hk _. by apply elem_of_list_singleton in Hk. }
  assert (N : forall k, ~ depthish k -> depthish k -> k = depth_key_of b) by (intros; done).
  assert (D1 : ~ depthish "density") by (intros [?|?]; done). assert (D2 : ~ depthish "vertical_uncertainty") by (intros [?|?]; done).
  assert (D3 : ~ depthish "horizontal_uncertainty") by (intros [?|?]; done). assert (D4 : ~ depthish "hypothesis_count") by (intros [?|?]; done).
  assert (D5 : ~ depthish "total_uncertainty") by (intros [?|?]; done). assert (D6 : ~ depthish "hypothesis_ratio") by (intros [?|?]; done).
  unfold initial_layers. case_bool_decide as E1.
  - cbn [andb]. change (dset (@nil (string * arr)) (depth_key_of b) ?x) with [(depth_key_of b, x)].
    destruct (has_tvu dt), (has_thu dt); repeat (apply head_dset; [|by apply N]); apply H0.
  - rewrite bool_decide_eq_true_2.
    + change (dset (@nil (string * arr)) (depth_key_of b) ?x) with [(depth_key_of b, x)].
      repeat (apply head_dset; [|by apply N]); apply H0.
    + apply elem_of_list_In in Ha. cbn in Ha. intuition congruence.
Qed.
Lemma head_blank b l l' : head_ok (depth_key_of b) l -> blank_layers (depth_key_of b) l = Ok l' -> head_ok (depth_key_of b) l'.
Proof.
  intros H. unfold blank_layers. intros (d & _ & Hl)%rbind_Ok. apply rbind_Ok in Hl as (n & _ & Hl). match type of Hl with Ok ?x = Ok ?y => assert (x = y) as <- by congruence end. clear Hl.
  set (f := fun (acc : dict string arr) (nv : string * cell) => match dget acc nv.1 with Some a => dset acc nv.1 (blank a nv.2) | None => acc end).
  assert (Hf : forall us acc, Forall (fun nv : string * cell => ~ depthish nv.1) us -> head_ok (depth_key_of b) acc -> head_ok (depth_key_of b) (foldl f acc us)).
  { induction us as [|u us IH]; intros acc Hu Ha; [done|]. inversion Hu; subst. cbn [foldl]. apply IH; [done|]. unfold f.
    destruct (dget acc u.1); [|done]. by apply head_dset. }
  apply Hf.
  - unfold unc_layers. repeat constructor; cbn; intros [?|?]; done.
  - apply head_dset; [by apply head_dset|]. intros [?|?]; done.
Qed.
Lemma head_stored b l : head_ok (depth_key_of b) l -> head_ok (depth_key_of b) (stored_part l).
Proof.
  intros [(a & rest & ->) H]. unfold stored_part.
  assert (Hd : dget ((depth_key_of b, a) :: rest) (depth_key_of b) = Some a) by (cbn; by rewrite decide_True).
  split.
  - destruct b; cbn [depth_key_of] in *; unfold stored_layers.
    + assert (Hn : dget (("intensity", a) :: rest) "depth" = None).
      { apply eq_None_not_Some. intros Hs%dget_is_Some. apply H in Hs; [done|by left]. }
      cbn [omap list_omap]. rewrite Hn, Hd. by eexists _, _.
    + cbn [omap list_omap]. rewrite Hd. by eexists _, _.
  - intros k Hk. apply H. unfold dkeys in Hk. apply elem_of_list_fmap in Hk as (kv & -> & Hkv).
    apply elem_of_list_omap in Hkv as (n & _ & Hn). destruct (dget _ n) eqn:E; [|done]. injection Hn as <-. cbn [fst]. apply dget_is_Some. by eexists.
Qed.

Definition headed (t : tile) : Prop :=
  NoDup (dkeys (t_cells t)) /\ forall r l, dget (t_cells t) r = Some l -> head_ok (t_depth_key t) l.

Lemma headed_keep t t' : t_backscatter t' = t_backscatter t -> NoDup (dkeys (t_cells t')) ->
  (forall r l', dget (t_cells t') r = Some l' -> (exists l, dget (t_cells t) r = Some l /\ (head_ok (t_depth_key t) l -> head_ok (t_depth_key t) l')) \/ head_ok (t_depth_key t) l') ->
  headed t -> headed t'.
Proof.
  intros Hb Hn H [_ HH]. split; [done|]. intros r l' Hl. unfold t_depth_key in *. rewrite Hb.
  destruct (H r l' Hl) as [(l & H1 & H2)|?]; [|done]. apply H2. by eapply HH.
Qed.
Lemma dget_dset_inv {K V} `{EqDecision K} (d : dict K V) k v k' v' :
  dget (dset d k v) k' = Some v' -> (k' = k /\ v' = v) \/ dget d k' = Some v'.
Proof. rewrite dget_dset. destruct (decide (k' = k)) as [->|]; [|by right]. intros [= <-]. by left. Qed.
Lemma NoDup_dset {K V} `{EqDecision K} (d : dict K V) k v : NoDup (dkeys d) -> NoDup (dkeys (dset d k v)).
Proof.
  intros H. rewrite dkeys_dset. destruct (decide _); [done|]. apply NoDup_app. split; [done|]. split; [|apply NoDup_singleton].
  intros x Hx Hx2%elem_of_list_singleton. by subst.
Qed.
Lemma headed_set t t0 r l : headed t -> t_backscatter t0 = t_backscatter t -> t_cells t0 = t_cells t ->
  head_ok (t_depth_key t) l -> headed (set_layers t0 r l).
Proof.
  intros [Hn HH] Hb Hc Hl. split.
  - change (t_cells (set_layers t0 r l)) with (dset (t_cells t0) r l). apply NoDup_dset. by rewrite Hc.
  - change (t_cells (set_layers t0 r l)) with (dset (t_cells t0) r l). rewrite Hc. intros r' l' Hg.
    change (t_depth_key (set_layers t0 r l)) with (t_depth_key t0). unfold t_depth_key in *. rewrite Hb.
    apply dget_dset_inv in Hg as [[-> ->]|Hg]; [done|by eapply HH].
Qed.
Lemma headed_at t r a name : headed t -> dget (layers_at t r) name = Some a -> head_ok (t_depth_key t) (layers_at t r).
Proof.
  intros [_ HH] Hd. unfold layers_at in *. destruct (dget (t_cells t) r) eqn:E; [by eapply HH|done].
Qed.
Lemma headed_clear_all t rs : headed t -> headed (clear_temp_all t rs).
Proof.
  intros H. unfold clear_temp_all. revert t H. induction rs as [|r rs IH]; intros t H; [done|]. cbn [foldl]. apply IH.
  destruct H as [Hn HH]. split; [by rewrite (dkeys_dmapkv _ (t_cells t) : dkeys (t_cells (clear_temp_data t r)) = _)|].
  intros r' l'. change (t_cells (clear_temp_data t r)) with (dmapkv (fun r' l => if decide (r' = r) then clear_temp_layers l else l) (t_cells t)).
  rewrite dget_dmapkv. destruct (dget (t_cells t) r') as [l|] eqn:E; [|done]. cbn. intros [= <-].
  specialize (HH _ _ E). change (t_depth_key (clear_temp_data t r)) with (t_depth_key t).
  destruct (decide _); [by apply head_clear|done].
Qed.
Lemma headed_same t t' : t_backscatter t' = t_backscatter t -> t_cells t' = t_cells t -> headed t -> headed t'.
Proof. intros Hb Hc [H1 H2]. split; [by rewrite Hc|]. unfold t_depth_key in *. rewrite Hb, Hc. done. Qed.
Lemma headed_remove t c : headed t -> headed (t_remove_points t c).
Proof.
  intros H. unfold t_remove_points. destruct (dget _ _) as [[s0 e0]|]; [|done]. destruct (t_data t); [|done]. cbv zeta.
  eapply headed_same; [| |apply headed_clear_all]; [done|done|]. eapply headed_same; [| |exact H]; done.
Qed.
Lemma headed_add t d c : headed t -> headed (t_add_points t d c).
Proof.
  intros H. unfold t_add_points. destruct (t_data t); [|by eapply headed_same; [| |exact H]]. cbv zeta.
  eapply headed_same; [| |apply headed_clear_all]; [done|done|].
  destruct (dmem _ _); [eapply headed_same; [| |apply (headed_remove t c H)]; done|eapply headed_same; [| |exact H]; done].
Qed.
Lemma headed_reload t m : headed t -> headed (t_reload m t).
Proof.
  intros H. unfold t_reload. destruct (saves_grid m); [|done]. destruct H as [H1 H2]. split.
  { change (NoDup (dkeys (dmapv stored_part (t_cells t)))). by rewrite dkeys_dmapv. }
  intros r l'. change (t_cells (t <| t_cells := dmapv stored_part (t_cells t) |>)) with (dmapv stored_part (t_cells t)). rewrite dget_dmapv.
  destruct (dget (t_cells t) r) as [l|] eqn:E; [|done]. cbn. intros [= <-]. apply head_stored. exact (H2 _ _ E).
Qed.
Lemma headed_simple e a t r t' : headed t -> run_simple_grid e a t r = Ok t' -> headed t'.
Proof.
  intros H. unfold run_simple_grid. destruct (t_data t); [|done].
  intros (tv & _ & Hr)%rbind_Ok. apply rbind_Ok in Hr as (th & _ & Hr). apply rbind_Ok in Hr as (idx & _ & Hr).
  apply rbind_Ok in Hr as (dg & Hdg & Hr). apply rbind_Ok in Hr as (ng & _ & Hr). apply rbind_Ok in Hr as (o & _ & Hr). injection Hr as <-.
  destruct (dget (layers_at t r) (t_depth_key t)) eqn:E; [|done].
  pose proof (headed_at _ _ _ _ H E) as HL. eapply headed_set; [exact H|done|done|].
  unfold round_if. destruct (0 <? _)%nat, (0 <? _)%nat; repeat (apply head_dset; [|first [done|intros [?|?]; done]]); done.
Qed.
Lemma headed_cube e t r gp border t' : headed t -> run_cube_grid e t r gp border = Ok t' -> headed t'.
Proof.
  intros H. unfold run_cube_grid. destruct (t_data t); [|done]. destruct (negb _); [done|].
  intros (tv & _ & Hr)%rbind_Ok. apply rbind_Ok in Hr as (th & _ & Hr). apply rbind_Ok in Hr as (ra & _ & Hr). apply rbind_Ok in Hr as (idx & _ & Hr).
  apply rbind_Ok in Hr as (dg & Hdg & Hr). apply rbind_Ok in Hr as (ng & _ & Hr). apply rbind_Ok in Hr as (o & _ & Hr). injection Hr as <-.
  destruct (dget (layers_at t r) (t_depth_key t)) eqn:E; [|done].
  pose proof (headed_at _ _ _ _ H E) as HL. eapply headed_set; [exact H|done|done|].
  repeat (apply head_dset; [|first [done|intros [?|?]; done]]); done.
Qed.
Lemma headed_new_grid e t r alg t' : headed t -> t_data t <> None -> alg ∈ ["mean"; "shoalest"; "cube"] -> new_grid e t r alg = Ok t' -> headed t'.
Proof.
  intros H Hd Ha. unfold new_grid. destruct (negb _); [done|]. intros (ex & _ & Hr)%rbind_Ok. apply rbind_Ok in Hr as (ey & _ & Hr). injection Hr as <-.
  eapply headed_set; [exact H|done|done|]. rewrite bool_decide_eq_true_2 by done. by apply head_initial.
Qed.
Lemma headed_grid e t alg ro clear mode gp border t' r : headed t -> alg ∈ ["mean"; "shoalest"; "cube"] ->
  t_grid e t alg ro clear mode gp border = Ok (t', r) -> headed t'.
Proof.
  intros H Ha. unfold t_grid. intros (r0 & _ & Hr)%rbind_Ok. destruct (negb _); [done|].
  apply rbind_Ok in Hr as (t2 & H2 & Hr). apply rbind_Ok in Hr as (t3 & H3 & Hr). injection Hr as <- <-.
  set (t1 := clear_temp_data (if clear then clear_grid t else t) r0) in *.
  assert (Q1 : headed t1).
  { change t1 with (clear_temp_all (if clear then clear_grid t else t) [r0]). apply headed_clear_all. destruct clear; [|done].
    split; [apply NoDup_nil_2|]. intros r l Hl. done. }
  assert (Q2 : headed t2).
  { clearbody t1. unfold prepare_grid in H2. apply rbind_Ok in H2 as (ta & Hta & H2).
    apply rbind_Ok in H2 as (ex & _ & H2). apply rbind_Ok in H2 as (ey & _ & H2). apply rbind_Ok in H2 as (d & Hd & H2).
    assert (Hd1 : t_data t1 <> None).
    { destruct (negb (dmem _ _) || _); [|injection Hta as <-; by destruct (t_data t1)].
      unfold new_grid in Hta. destruct (negb _); [done|]. apply rbind_Ok in Hta as (? & _ & Hta). apply rbind_Ok in Hta as (? & _ & Hta).
      injection Hta as <-. cbn in Hd. by destruct (t_data t1). }
    assert (Qa : headed ta).
    { destruct (negb (dmem _ _) || _); [|by injection Hta as <-]. refine (headed_new_grid _ _ _ _ _ _ _ Ha Hta); [|exact Hd1].
      eapply headed_same; [| |exact Q1]; done. }
    destruct (dget (t_indices ta) r0) as [idx|].
    - apply rbind_Ok in H2 as (idx' & _ & H2). apply rbind_Ok in H2 as (l & Hl & H2). injection H2 as <-.
      eapply headed_set; [exact Qa|done|done|]. eapply head_blank; [|exact Hl].
      unfold blank_layers in Hl. apply rbind_Ok in Hl as (dd & Hdd & _). destruct (dget (layers_at ta r0) (t_depth_key ta)) eqn:E; [|done].
      by eapply headed_at.
    - apply rbind_Ok in H2 as (idx' & _ & H2). injection H2 as <-. eapply headed_same; [| |exact Qa]; done. }
  eapply headed_same; [| |instantiate (1 := t3)]; [done|done|].
  unfold run_algorithm in H3. repeat case_bool_decide; [by eapply headed_simple..|by eapply headed_cube|by injection H3 as <-].
Qed.
Lemma headed_query e t layer ro nodata up t' o : headed t -> t_get_layers_by_name e t layer ro nodata up = Ok (t', o) -> headed t'.
Proof.
  intros HH. unfold t_get_layers_by_name. destruct (t_is_empty t); [by intros [= <- _]|]. intros (mr & Hmr & H)%rbind_Ok.
  destruct mr as [r0|]; [|by injection H as <- _]. apply rbind_Ok in H as (t1 & H1 & H).
  apply rbind_Ok in H as (a & _ & H). injection H as <- _.
  assert (Hr : is_Some (dget (t_cells t) r0)).
  { destruct ro as [r'|].
    - destruct (dmem (t_cells t) r') eqn:E; rewrite ?E in Hmr; [|done]. injection Hmr as ->. by apply dget_is_Some, dmem_true.
    - apply dget_is_Some. destruct (dkeys (t_cells t)) as [|r1 [|]]; try done. injection Hmr as ->. left. }
  assert (HL : head_ok (t_depth_key t) (layers_at t r0)).
  { destruct Hr as [l El]. unfold layers_at. rewrite El. by eapply (proj2 HH). }
  unfold prepare_query in H1. case_bool_decide as Hsl.
  { unfold run_slopes in H1. destruct (dmem _ _); [by injection H1 as <-|].
    apply rbind_Ok in H1 as (? & _ & H1). apply rbind_Ok in H1 as (? & _ & H1). apply rbind_Ok in H1 as (? & _ & H1).
    apply rbind_Ok in H1 as (? & _ & H1). apply rbind_Ok in H1 as (? & _ & H1). injection H1 as <-.
    eapply headed_set; [exact HH|done|done|]. repeat (apply head_dset; [|intros [?|?]; done]). done. }
  destruct (is_container_query layer) eqn:Eq; [|by injection H1 as <-].
  assert (Hnl : ~ depthish layer).
  { unfold is_container_query in Eq. apply negb_true_iff, bool_decide_eq_false in Eq. intros [->| ->]; apply Eq; apply (bool_decide_unpack _); vm_compute; exact I. }
  destruct (dmem (t_container t) layer).
  - assert (HC : forall a, run_simple_container a t r0 layer = Ok t1 -> headed t1).
    { intros a0. unfold run_simple_container. destruct (t_data t) eqn:E; [|done].
      intros (? & _ & H)%rbind_Ok. apply rbind_Ok in H as (? & _ & H). apply rbind_Ok in H as (? & _ & H).
      apply rbind_Ok in H as (? & _ & H). injection H as <-.
      eapply headed_set; [exact HH|done|done|]. apply head_dset; [by apply head_dset|].
      intros Hd. exfalso. destruct Hd as [Hd|Hd]; apply (f_equal String.length) in Hd as Hd2; rewrite str_length_app in Hd2; cbn in Hd2; [lia|].
      assert (String.length layer = 1)%nat by lia. destruct layer as [|c [|]]; try done. }
    repeat case_bool_decide; [by eapply HC..|by destruct (e_cube_enabled e)|by injection H1 as <-].
  - apply rbind_Ok in H1 as (? & _ & H1). injection H1 as <-. eapply headed_set; [exact HH|done|done|]. by apply head_dset.
Qed.
Lemma reach_headed q e x y s b t : tile_reach q e x y s b t -> headed t.
Proof.
  induction 1.
  - split; [apply NoDup_nil_2|]. intros r l Hl. done.
  - by apply headed_add.
  - by apply headed_remove.
  - by eapply headed_grid.
  - by eapply headed_query.
  - by apply headed_reload.
Qed.

(** ** Row-major order *)
Lemma positions_lookup rows cols k : (k < rows * cols)%nat -> positions rows cols !! k = Some (k / cols, k mod cols)%nat.
Proof.
  intros Hk. destruct (flat_div_lt _ _ _ Hk) as [H1 H2]. unfold positions.
  rewrite (concat_const_lookup (fun i => map (fun j => (i, j)) (seq 0 cols)) cols) by (intros; rewrite ?map_length, ?seq_length; lia).
  rewrite lookup_seq_lt by done. cbn [mbind option_bind]. rewrite list_lookup_fmap, lookup_seq_lt by done. done.
Qed.
Lemma positions_length rows cols : length (positions rows cols) = (rows * cols)%nat.
Proof.
  unfold positions. rewrite (concat_const_length _ cols), seq_length; [done|]. intros. by rewrite map_length, seq_length.
Qed.
Lemma flat_positions {A} (d : A) (a : nd A) : nd_wf a -> nflat a = map (fun ij => default d (nd_get a ij.1 ij.2)) (positions (nrows a) (ncols a)).
Proof.
  intros Hw. apply list_eq_same_length with (n := (nrows a * ncols a)%nat); [by rewrite map_length, positions_length|exact Hw|].
  intros k x y Hk Hx Hy. rewrite list_lookup_fmap, positions_lookup in Hy by done. cbn in Hy. injection Hy as <-.
  destruct (flat_div_lt _ _ _ Hk) as [H1 H2]. unfold nd_get. rewrite !bool_decide_eq_true_2 by done. cbn [andb].
  rewrite <- flat_split by lia. by rewrite Hx.
Qed.
Lemma values_order a : nd_wf a -> values_in_order a = values a.
Proof.
  intros Hw. unfold values. rewrite (flat_positions None a Hw) at 1. unfold values_in_order.
  induction (positions (nrows a) (ncols a)) as [|p l IH]; [done|]. cbn [omap list_omap map]. destruct (default None _); cbn; by rewrite ?IH.
Qed.

(** ** Counts of a tile *)
Lemma filter_not_nan (l : list cell) : length (filter (fun c => is_nan c = false) l) = length (omap id l).
Proof.
  induction l as [|[q|] l IH]; [done|rewrite filter_cons_True by done|rewrite filter_cons_False by done].
  - cbn [length omap list_omap id]. by rewrite IH.
  - exact IH.
Qed.

Lemma tile_cell_count e t : good e t -> headed t ->
  t_cell_count t = Ok (map (fun r => (r, populated t r (t_depth_key t))) (dkeys (t_cells t))).
Proof.
  intros HG [Hn HH]. unfold t_cell_count, dkeys. 
  change ((t_cells t).*1) with (map fst (t_cells t)). rewrite map_map.
  apply (rmap_all_Ok _ (fun rl : Z * dict string arr => (rl.1, populated t rl.1 (t_depth_key t)))). apply Forall_forall.
  intros [r l] Hin. apply dget_elem_NoDup in Hin; [|done]. destruct (HH r l Hin) as [(a & rest & ->) _]. cbn [fst snd].
  do 2 f_equal. unfold populated, layer_of. rewrite Hin. cbn [dget]. rewrite decide_True by done.
  rewrite filter_not_nan, values_order; [done|]. eapply good_wf; [exact HG|exact Hin|]. cbn. by rewrite decide_True.
Qed.
Lemma density_some e t r l : good e t -> dget (t_cells t) r = Some l -> exists a, dget l "density" = Some a /\ layer_of t r "density" = Some a /\ nd_wf a.
Proof.
  intros HG Hl. destruct (g_cells _ _ HG r l Hl) as (_ & _ & _ & _ & alg & _ & Ha & H1 & H2).
  destruct (alg_keys_depth e (t_depth_key t) _ Ha) as [_ K2]. destruct (H1 _ K2) as [a Ea]. exists a. split; [done|].
  split; [unfold layer_of; by rewrite Hl|by eapply good_wf].
Qed.
Definition area_at (e : env) (t : tile) (r : Z) : Q := (numQ (positives t r "density") * (metres e r * metres e r))%Q.
Lemma tile_coverage e t : good e t -> headed t ->
  t_coverage_area e t = Ok (qsum (map (fun r => round3 (area_at e t r)) (dkeys (t_cells t)))).
Proof.
  intros HG [Hn HH]. unfold t_coverage_area, dkeys. rewrite map_map.
  rewrite (rmap_all_Ok _ (fun rl : Z * dict string arr => round3 (area_at e t rl.1))); [done|]. apply Forall_forall.
  intros [r l] Hin. apply dget_elem_NoDup in Hin; [|done]. destruct (density_some _ _ _ _ HG Hin) as (a & H1 & H2 & H3).
  unfold density_layer. cbn [fst snd]. rewrite H1. cbn [rofopt rbind]. unfold area_at, positives. rewrite H2. unfold positive_counts.
  rewrite values_order by done. done.
Qed.
Lemma sum_error (l : list Q) : (Qabs (qsum (map round3 l) - sumQ l) <= numQ (length l) * (1 # 2000))%Q.
Proof.
  induction l as [|x l IH]; [done|]. cbn [map length]. change (qsum (round3 x :: ?z)) with (round3 x + qsum z)%Q. change (sumQ (x :: l)) with (x + sumQ l)%Q.
  destruct (round3_spec x) as (k & _ & Hr & _). rewrite Qabs_Qminus in Hr.
  assert (E : (round3 x + qsum (map round3 l) - (x + sumQ l) == (round3 x - x) + (qsum (map round3 l) - sumQ l))%Q) by ring.
  rewrite E. eapply Qle_trans; [apply Qabs_triangle|]. unfold numQ in *. rewrite Nat2Z.inj_succ, <- Z.add_1_l, inject_Z_plus.
  set (u := Qabs (round3 x - x)%Q) in *. set (v := Qabs (qsum (map round3 l) - sumQ l)%Q) in *. clearbody u v.
  change (inject_Z 1) with 1%Q. lra.
Qed.
Lemma area_error e t q : good e t -> headed t -> t_coverage_area e t = Ok q ->
  (Qabs (q - gridded_area e t) <= numQ (length (dkeys (t_cells t))) * (1 # 2000))%Q.
Proof.
  intros HG HH. rewrite tile_coverage by done. intros [= <-].
  pose proof (sum_error (map (area_at e t) (dkeys (t_cells t)))) as H. rewrite map_map, map_length in H. exact H.
Qed.
Lemma tile_values e t l : good e t -> headed t -> l ∈ float_layers -> t_return_layer_values t l = Ok (layer_values t l).
Proof.
  intros HG [Hn HH] Hl. unfold t_return_layer_values. rewrite bool_decide_eq_true_2 by done. unfold layer_values, dkeys. rewrite map_map. f_equal. f_equal.
  apply map_ext_in. intros [r d] Hin%elem_of_list_In. apply dget_elem_NoDup in Hin; [|done]. cbn [fst snd]. unfold layer_of. rewrite Hin.
  destruct (dget d l) eqn:E; [|done]. rewrite values_order; [done|]. by eapply good_wf.
Qed.
Lemma tile_counts e t l : good e t -> headed t -> l ∈ int_layers -> t_return_layer_values t l = Ok (filter (fun q => Qeq_bool q 0 = false) (layer_values t l)).
Proof.
  intros HG [Hn HH] Hl. unfold t_return_layer_values. rewrite bool_decide_eq_false_2.
  2:{ intros H. apply elem_of_list_In in Hl, H. cbn in Hl, H. intuition congruence. }
  rewrite bool_decide_eq_true_2 by done. unfold layer_values, dkeys. rewrite map_map. f_equal.
  assert (HF : forall rd, rd ∈ t_cells t -> match dget rd.2 l with
      | Some a => filter (fun q => Qeq_bool q 0 = false) (omap id (nflat a)) | None => [] end =
      filter (fun q => Qeq_bool q 0 = false) (match layer_of t rd.1 l with Some a => values_in_order a | None => [] end)).
  { intros [r d] Hin. apply dget_elem_NoDup in Hin; [|done]. cbn [fst snd]. unfold layer_of. rewrite Hin.
    destruct (dget d l) eqn:E; [|done]. rewrite values_order; [done|]. by eapply good_wf. }
  revert HF. generalize (layer_of t). intros lo. clear. induction (t_cells t) as [|rd ds IH]; intros HF; [done|].
  cbn [map concat]. rewrite filter_app, HF by left. f_equal. apply IH. intros x Hx. apply HF. by right.
Qed.

(** ** Adding counts up *)
Lemma merge_get ds : forall acc r, default 0%nat (dget (foldl merge_count acc ds) r) =
  (default 0%nat (dget acc r) + list_sum (map snd (filter (fun kv => kv.1 = r) ds)))%nat.
Proof.
  induction ds as [|[k n] ds IH]; intros acc r; [cbn; lia|]. cbn [foldl]. rewrite IH. unfold merge_count. cbn [fst snd].
  rewrite dget_dset, filter_cons. cbn [fst]. destruct (decide (r = k)) as [->|Hne].
  - rewrite decide_True by done. cbn. unfold list_sum. lia.
  - rewrite decide_False by congruence. done.
Qed.
Lemma merge_nodup ds : forall acc, NoDup (dkeys acc) -> NoDup (dkeys (foldl merge_count acc ds)).
Proof. induction ds as [|kn ds IH]; intros acc H; [done|]. cbn [foldl]. apply IH. by apply NoDup_dset. Qed.
Lemma nodup_sum (d : dict Z nat) r : NoDup (dkeys d) -> list_sum (map snd (filter (fun kv => kv.1 = r) d)) = default 0%nat (dget d r).
Proof.
  induction d as [|[k n] d IH]; intros H; [done|]. unfold dkeys in H. cbn in H. apply NoDup_cons in H as [H1 H2]. rewrite filter_cons. cbn [fst dget].
  specialize (IH H2). destruct (decide (k = r)) as [->|Hne].
  - rewrite decide_True by done. rewrite (proj2 (dget_None d r)) in IH by done. cbn [map snd from_option id].
    change (list_sum (?x :: ?l)) with (x + list_sum l)%nat. rewrite IH. cbn. lia.
  - rewrite decide_False by congruence. exact IH.
Qed.
Lemma list_sum_app l k : list_sum (l ++ k) = (list_sum l + list_sum k)%nat.
Proof. unfold list_sum. rewrite foldr_app. induction l as [|x l IH]; [done|]. cbn. lia. Qed.
Section counts.
  Context {T : Type} (O : tile_ops T) (f : T -> Z -> nat).
  Lemma grid_cell_count (g : grid T) :
    (forall t, t ∈ live_tiles g -> exists d, op_cell_count O t = Ok d /\ NoDup (dkeys d) /\ forall r, default 0%nat (dget d r) = f t r) ->
    exists d, g_cell_count O g = Ok d /\ NoDup (dkeys d) /\ forall r, default 0%nat (dget d r) = list_sum (map (fun t => f t r) (live_tiles g)).
  Proof.
    intros H. assert (HL : forall ts, (forall t, t ∈ ts -> exists d, op_cell_count O t = Ok d /\ NoDup (dkeys d) /\ forall r, default 0%nat (dget d r) = f t r) ->
      exists ds, rmap (op_cell_count O) ts = Ok ds /\ forall r, list_sum (map snd (filter (fun kv => kv.1 = r) (concat ds))) = list_sum (map (fun t => f t r) ts)).
    { induction ts as [|t ts IH]; intros Ht; [by exists []|]. destruct (Ht t) as (d & H1 & H2 & H3); [left|].
      destruct IH as (ds & H4 & H5); [intros u Hu; apply Ht; by right|]. exists (d :: ds). cbn [rmap]. rewrite H1. cbn [rbind]. rewrite H4. split; [done|].
      intros r. cbn [concat map]. rewrite filter_app, map_app, list_sum_app, H5, nodup_sum, H3 by done. done. }
    destruct (HL _ H) as (ds & H1 & H2). unfold g_cell_count. rewrite H1. cbn [rbind]. eexists. split; [done|]. split; [apply merge_nodup, NoDup_nil_2|].
    intros r. rewrite merge_get, H2. done.
  Qed.
  Lemma grid_coverage e (area : T -> Q) (n : T -> nat) (g : grid T) :
    (forall t, t ∈ live_tiles g -> exists q, op_coverage O e t = Ok q /\ (Qabs (q - area t) <= numQ (n t) * (1 # 2000))%Q) ->
    exists q, g_coverage_area O e g = Ok q /\ (Qabs (q - sumQ (map area (live_tiles g))) <= numQ (list_sum (map n (live_tiles g))) * (1 # 2000))%Q.
  Proof.
    intros H. assert (HL : forall ts, (forall t, t ∈ ts -> exists q, op_coverage O e t = Ok q /\ (Qabs (q - area t) <= numQ (n t) * (1 # 2000))%Q) ->
      exists qs, rmap (op_coverage O e) ts = Ok qs /\ (Qabs (qsum qs - sumQ (map area ts)) <= numQ (list_sum (map n ts)) * (1 # 2000))%Q).
    { induction ts as [|t ts IH]; intros Ht; [by exists []|]. destruct (Ht t) as (q & H1 & H2); [left|].
      destruct IH as (qs & H4 & H5); [intros u Hu; apply Ht; by right|]. exists (q :: qs). cbn [rmap]. rewrite H1. cbn [rbind]. rewrite H4. split; [done|].
      cbn [map]. change (qsum (q :: qs)) with (q + qsum qs)%Q. change (sumQ (?x :: ?l)) with (x + sumQ l)%Q.
      change (list_sum (?x :: ?l)) with (x + list_sum l)%nat.
      assert (E : (q + qsum qs - (area t + sumQ (map area ts)) == (q - area t) + (qsum qs - sumQ (map area ts)))%Q) by ring.
      rewrite E. eapply Qle_trans; [apply Qabs_triangle|]. unfold numQ in *. rewrite Nat2Z.inj_add, inject_Z_plus.
      set (u := Qabs (q - area t)%Q) in *. set (v := Qabs (qsum qs - _)%Q) in *. clearbody u v. lra. }
    destruct (HL _ H) as (ds & H1 & H2). unfold g_coverage_area. rewrite H1. cbn [rbind]. by eexists.
  Qed.
  Lemma grid_values (vals : T -> list Q) (g : grid T) l :
    (forall t, t ∈ live_tiles g -> op_layer_values O t l = Ok (vals t)) ->
    g_return_layer_values O g l = Ok (concat (map vals (live_tiles g))).
  Proof.
    intros H. unfold g_return_layer_values. rewrite (rmap_all_Ok _ vals); [done|]. by apply Forall_forall.
  Qed.
End counts.

(** ** Reachable tiles *)
Lemma live_at {T} (g : grid T) t : t ∈ live_tiles g -> exists k, tile_at g k = Some t.
Proof.
  unfold live_tiles, tile_at. destruct (g_tiles g) as [a|]; [|intros H; by apply not_elem_of_nil in H].
  intros H%elem_of_list_omap. destruct H as (o & Ho & E). apply elem_of_list_lookup in Ho as (k & Hk). exists k. by rewrite Hk.
Qed.
Lemma sr_tile_ok e size b zarr disk g ct t : 0 < size -> sr_clean e known_args size b zarr disk g ct -> t ∈ live_tiles g ->
  good e t /\ headed t /\ t_backscatter t = b.
Proof.
  intros Hs H (k & Ht)%live_at.
  destruct (sr_clean_inv e (fun _ _ => True) known_args size b zarr disk Hs (fun a Pa => known_allows a Pa) g ct H) as (_ & seen & ok & HI).
  destruct (root_rep _ _ _ _ _ _ _ _ HI Ht) as (x & y & ct' & (_ & (f & HT) & _) & Hne).
  destruct (steps_good _ _ _ _ _ _ _ _ _ Hs HT) as [H1 H2]. split; [done|]. split; [by eapply reach_headed, steps_reach|apply H2].
Qed.
Lemma vr_tile_ok e size sub b zarr disk g ct sg t : 0 < size -> 0 < sub -> vr_clean e known_args size sub b zarr disk g ct -> sg ∈ live_tiles g -> t ∈ live_tiles sg ->
  good e t /\ headed t /\ t_backscatter t = false.
Proof.
  intros Hs Hsub H (k & Hg)%live_at (j & Ht)%live_at.
  destruct (vr_clean_inv e (fun _ _ => True) known_args size sub b zarr disk Hs Hsub (fun a Pa => known_allows a Pa) g ct H) as (_ & seen & ok & HI).
  destruct (root_rep _ _ _ _ _ _ _ _ HI Hg) as (x & y & ct' & (HC & _) & Hne).
  destruct (child_rep _ _ _ _ _ _ _ _ _ HC Ht) as (u & v & ct2 & (_ & (f & HT) & _) & Hne2).
  destruct (steps_good _ _ _ _ _ _ _ _ _ Hsub HT) as [H1 H2]. split; [done|]. split; [by eapply reach_headed, steps_reach|apply H2].
Qed.

(** ** Cells with points *)
Lemma positions_in rows cols ij : ij ∈ positions rows cols -> (ij.1 < rows)%nat /\ (ij.2 < cols)%nat.
Proof.
  intros H. apply elem_of_list_In in H. unfold positions in H. apply in_concat in H as (l & H1 & H2). apply in_map_iff in H1 as (i & <- & Hi).
  apply in_map_iff in H2 as (j & <- & Hj). apply in_seq in Hi, Hj. cbn. lia.
Qed.
Lemma omap_filter_length {A B} (f : A -> option B) (P : A -> Prop) `{!forall x, Decision (P x)} l :
  (forall x, x ∈ l -> is_Some (f x) <-> P x) -> length (omap f l) = length (filter P l).
Proof.
  induction l as [|x l IH]; intros HF; [done|]. rewrite filter_cons. cbn [omap list_omap].
  assert (IH' : length (omap f l) = length (filter P l)) by (apply IH; intros y Hy; apply HF; by right).
  destruct (HF x) as [H1 H2]; [left|]. destruct (f x) as [b|].
  - rewrite decide_True by (apply H1; by eexists). cbn [length]. f_equal. exact IH'.
  - rewrite decide_False; [done|]. intros Hp. by destruct (H2 Hp).
Qed.
Lemma omap_filter_comp {A B} (f : A -> option B) (P : B -> Prop) `{!forall x, Decision (P x)} (l : list A) :
  filter P (omap f l) = omap (fun x => match f x with Some b => if decide (P b) then Some b else None | None => None end) l.
Proof.
  induction l as [|x l IH]; [done|]. cbn [omap list_omap]. destruct (f x) as [b|]; [|exact IH]. rewrite filter_cons.
  destruct (decide (P b)); [|exact IH]. f_equal. exact IH.
Qed.
Lemma layer_count n a (P : nat -> nat -> cell -> Prop) (W : nat * nat -> Prop) `{!forall x, Decision (W x)} (keep : Q -> Prop) `{!forall x, Decision (keep x)} :
  layer_is n a P -> (forall i j v, (i < n)%nat -> (j < n)%nat -> P i j v -> (exists q, v = Some q /\ keep q) <-> W (i, j)) ->
  length (filter keep (values_in_order a)) = length (filter W (positions n n)).
Proof.
  intros (H1 & H2 & H3 & H4) HW. unfold values_in_order. rewrite H1, H2, omap_filter_comp. apply omap_filter_length.
  intros [i j] Hin%positions_in. cbn [fst snd] in *. destruct Hin as [Hi Hj]. destruct (H4 i j Hi Hj) as (v & -> & Hv). cbn [from_option id].
  rewrite <- (HW i j v Hi Hj Hv). destruct v as [q|].
  - destruct (decide (keep q)); split; [intros _; by exists q|intros _; by eexists|by intros [? ?]|by intros (? & [= <-] & ?)].
  - split; [by intros [? ?]|by intros (? & ? & _)].
Qed.
Lemma reflects_count e alg r x y size b d t : reflects e alg r x y size b d t -> alg = "mean" \/ alg = "shoalest" ->
  exists n, cells_cover size r n /\ populated t r (if b then "intensity" else "depth") = cells_with_points x y r n d /\
    positives t r "density" = cells_with_points x y r n d.
Proof.
  intros (n & depth & density & Hr & Hc & Hd & Hn & Hm & Hs & HD & _) Ha. exists n. split; [done|]. unfold populated, positives. rewrite Hd, Hn.
  assert (Hcell : exists P, layer_is n depth P /\ forall i j v, P i j v -> (exists q, v = Some q) <-> points_in_cell x y r i j d <> []).
  { destruct Ha as [->| ->]; [exists (fun row col => mean_cell (map pz (points_in_cell x y r row col d)))|exists (fun row col => least_cell (map pz (points_in_cell x y r row col d)))];
      (split; [auto|]); intros i j v [[E ->]|(m & q & Hq & _ & ->)].
    - split; [by intros [? ?]|]. intros Hne. by destruct (points_in_cell _ _ _ _ _ _).
    - split; [|by eexists]. intros _ E. destruct Hq as [Hq _]. by rewrite E in Hq.
    - split; [by intros [? ?]|]. intros Hne. by destruct (points_in_cell _ _ _ _ _ _).
    - split; [|by eexists]. intros _ E. destruct Hq as [(z & Hz & _) _]. rewrite E in Hz. by apply not_elem_of_nil in Hz. }
  destruct Hcell as (P & HL & HP). unfold cells_with_points. split.
  - rewrite <- (layer_count n depth P (fun ij => points_in_cell x y r ij.1 ij.2 d <> []) (fun _ => True)).
    + f_equal. induction (values_in_order depth) as [|q l IH]; [done|]. rewrite filter_cons_True by done. by f_equal.
    + done.
    + intros i j v _ _ Hv. cbn [fst snd]. rewrite <- (HP i j v Hv). split; intros (q & H); exists q; [by destruct H|done].
  - eapply layer_count; [exact HD|]. intros i j v _ _ ->. cbn [fst snd]. split.
    + intros (q & [= <-] & Hq) E. rewrite E in Hq. by vm_compute in Hq.
    + intros Hne. eexists. split; [done|]. apply not_true_iff_false. intros Hq%Qle_bool_iff. unfold numQ in Hq. change 0%Q with (inject_Z 0) in Hq. rewrite <- Zle_Qle in Hq.
      destruct (points_in_cell _ _ _ _ _ _); [done|]. cbn [length] in Hq. lia.
Qed.

(** ** Sums over sub grids *)
Lemma concat_map_concat {A B} (f : A -> list B) (ls : list (list A)) : concat (map f (concat ls)) = concat (map (fun l => concat (map f l)) ls).
Proof. induction ls as [|l ls IH]; [done|]. cbn. by rewrite map_app, concat_app, IH. Qed.
Lemma list_sum_concat {A} (f : A -> nat) (ls : list (list A)) : list_sum (map f (concat ls)) = list_sum (map (fun l => list_sum (map f l)) ls).
Proof.
  induction ls as [|l ls IH]; [done|]. cbn [concat map]. rewrite map_app, list_sum_app, IH. done.
Qed.
Lemma sumQ_concat {A} (f : A -> Q) (ls : list (list A)) : (sumQ (map f (concat ls)) == sumQ (map (fun l => sumQ (map f l)) ls))%Q.
Proof.
  induction ls as [|l ls IH]; [done|]. cbn [concat map]. rewrite map_app, sumQ_app, IH. done.
Qed.
Lemma tile_counts_dict e t dk : good e t -> headed t -> dk = t_depth_key t ->
  exists d, t_cell_count t = Ok d /\ NoDup (dkeys d) /\ forall r, default 0%nat (dget d r) = populated t r dk.
Proof.
  intros HG HH ->. eexists. split; [by eapply tile_cell_count|]. destruct HH as [Hn _]. split.
  - unfold dkeys at 1. rewrite <- list_fmap_compose. cbn. by rewrite list_fmap_id.
  - intros r. assert (E : forall ks, dget (map (fun r => (r, populated t r (t_depth_key t))) ks) r = if decide (r ∈ ks) then Some (populated t r (t_depth_key t)) else None).
    { induction ks as [|k ks IH]; [done|]. cbn [map dget]. destruct (decide (r = k)) as [->|Hne]; [by rewrite decide_True by left|]. rewrite IH.
      destruct (decide (r ∈ ks)); [by rewrite decide_True by (by right)|]. rewrite decide_False; [done|]. by rewrite elem_of_cons; intros [?|?]. }
    rewrite E. destruct (decide _) as [Hin|Hnin]; [done|]. unfold populated, layer_of. by rewrite (proj2 (dget_None (t_cells t) r) Hnin).
Qed.
Lemma values_other (g : sr_grid) l : l ∉ float_layers -> l ∉ int_layers -> live_tiles g <> [] -> g_return_layer_values sr_ops g l = Raise ValueError.
Proof.
  intros H1 H2 H3. unfold g_return_layer_values. destruct (live_tiles g) as [|t ts]; [done|]. cbn [rmap].
  change (op_layer_values sr_ops t l) with (t_return_layer_values t l). unfold t_return_layer_values. by rewrite !bool_decide_eq_false_2.
Qed.
Lemma only_mean_known r a : only_args "mean" r a -> known_args a.
Proof. intros [H _]. unfold known_args. rewrite H. left. Qed.
