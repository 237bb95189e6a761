(** What gridding a tile with an unknown algorithm does (C29). *)
From Coq Require Import Lqa.
From Verif Require Import Py Nd Numpy Point Bin Algorithms Tile Spec TileExec PyFacts NdFacts NumpyFacts AlgFacts BinFacts TileFacts TileGridFacts TileRunFacts TileHistFacts TileQueryFacts.
Open Scope Z_scope.

Lemma unknown_layers dt dk b alg n m : ~ known_alg alg -> initial_layers dt dk b alg n m = [].
Proof.
  intros H. unfold initial_layers, known_alg in *. rewrite bool_decide_eq_false_2 by tauto.
  by rewrite bool_decide_eq_false_2 by tauto.
Qed.
Lemma unknown_grid e t alg r clear mode gp border d : good e t -> t_data t = Some d -> ~ known_alg alg -> is_power_of_two (metres e r) = true ->
  match dget (t_indices t) r with
  | Some _ => t_grid e t alg (Some r) clear mode gp border = Raise KeyError
  | None => exists t', t_grid e t alg (Some r) clear mode gp border = Ok (t', r) /\ dget (t_cells t') r = Some [] /\ t_changed t' = false /\
      t_data t' = t_data t /\ t_container t' = t_container t /\ t_algorithm t' = Some alg
  end.
Proof.
  intros HG Hd HA Hp. pose proof (pow2_res_pos _ _ Hp) as Hr. pose proof (g_size _ _ HG) as Hs. pose proof (g_in _ _ HG) as Hin.
  unfold pts in Hin. rewrite Hd in Hin. cbn [default] in Hin. pose proof (g_cache _ _ HG r) as Hc. unfold pts in Hc. rewrite Hd in Hc. cbn [default] in Hc.
  unfold t_grid. cbn [choose_resolution rbind]. rewrite Hp. cbn [negb].
  set (t1 := clear_temp_data (if clear then clear_grid t else t) r).
  assert (F : t_data t1 = Some d /\ t_indices t1 = t_indices t /\ t_min_x t1 = t_min_x t /\ t_min_y t1 = t_min_y t /\ t_size t1 = t_size t /\
    (dmem (t_cells t1) r = true -> t_algorithm t1 <> Some alg) /\ t_container t1 = t_container t).
  { unfold t1. split; [by destruct clear|]. split; [by destruct clear|]. split; [by destruct clear|]. split; [by destruct clear|]. split; [by destruct clear|]. split; [|by destruct clear].
    intros Hm. apply dmem_true in Hm. assert (Hm' : r ∈ dkeys (t_cells t)).
    { destruct clear; [by apply not_elem_of_nil in Hm|]. by rewrite (dkeys_dmapkv _ (t_cells t) : dkeys (t_cells (clear_temp_data t r)) = _) in Hm. }
    apply dget_is_Some in Hm' as [l Hl]. destruct (g_cells _ _ HG r l Hl) as (_ & _ & _ & _ & alg0 & E & K & _).
    replace (t_algorithm (clear_temp_data _ r)) with (t_algorithm t) by (by destruct clear). intros E'. rewrite E in E'. injection E' as <-. done. }
  clearbody t1. destruct F as (F1 & F2 & F3 & F4 & F5 & F6 & F7).
  unfold prepare_grid.
  assert (E : negb (dmem (t_cells t1) r) || negb (bool_decide (t_algorithm t1 = Some alg)) = true).
  { destruct (dmem (t_cells t1) r); [|done]. by rewrite bool_decide_eq_false_2 by auto. }
  rewrite E. rewrite (new_grid_eq _ _ _ _ d) by (cbn; congruence || done). rewrite unknown_layers by done.
  cbn -[bin2d_with_indices dset dget tile_edges]. rewrite !dget_dset_eq, F1. cbn -[bin2d_with_indices dset dget tile_edges].
  rewrite F2.
  assert (N : forall (t2 : tile), t_min_x t2 = t_min_x t -> t_min_y t2 = t_min_y t -> t_size t2 = t_size t -> ncell t2 r = ncell t r) by (intros t2 _ _ E2; unfold ncell; by rewrite E2).
  rewrite !(N _) by done. rewrite F3, F4.
  destruct (dget (t_indices t) r) as [idx|] eqn:Ei.
  - destruct (existsb id _).
    + rewrite mask_select_map. rewrite bin2d_tile by (done || by apply Forall_mask_select). cbn. unfold layers_at. cbn. by rewrite dget_dset_eq.
    + cbn. unfold layers_at. cbn. by rewrite dget_dset_eq.
  - rewrite bin2d_tile by done. cbn. unfold run_algorithm, known_alg in *.
    rewrite !bool_decide_eq_false_2 by tauto. eexists. split; [reflexivity|]. cbn. rewrite dget_dset_eq, F1, F7. by rewrite Hd.
Qed.
