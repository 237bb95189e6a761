(** What the output folder of a single resolution grid holds. *)
From Verif Require Import Py Nd Numpy Point Bin Algorithms Tile Time Meta Disk Grid GridRun GridQuery GridOps Export Spec TileExec GridExec Store StoreExec.
From Verif Require Import PyFacts NdFacts NumpyFacts BinFacts TileFacts TileGridFacts TileSpecFacts TileRunFacts TileHistFacts TilePropFacts TileQueryFacts.
From Verif Require Import GridBaseFacts GridPlaceFacts GridInvFacts GridRootFacts GridEvolveFacts GridSrFacts GridPropFacts GridHistFacts GridRunFacts GridCleanFacts GridCountFacts.
From Verif Require Import FsFacts TileStoreFacts CrashFacts.
Open Scope Z_scope.

(** ** Tiles *)
(** plain_tile for a tile that may be without points *)
Record pl (t : tile) : Prop := {
  pl_nd : NoDup (dkeys (t_cells t));
  pl_ni : NoDup (dkeys (t_indices t));
  pl_gr : forall r, r ∈ dkeys (t_cells t) ->
    is_Some (dget (t_edges_x t) r) /\ is_Some (dget (t_edges_y t) r) /\ is_Some (dget (t_indices t) r) /\
    exists name, is_Some (layer_of t r name);
  pl_std : forall r name, is_Some (layer_of t r name) -> name ∈ stored_layers }.
Lemma plain_pl t : plain_tile t <-> pl t /\ is_Some (t_data t).
Proof. split; [intros [H1 H2 H3 H4 H5]; by split|intros [[H2 H3 H4 H5] H1]; by split]. Qed.
(** [t'] has the grids of [t]. *)
Record same_grids (t t' : tile) : Prop := {
  sg_cells : dkeys (t_cells t') = dkeys (t_cells t);
  sg_layers : forall r name, layer_of t' r name = layer_of t r name;
  sg_ex : t_edges_x t' = t_edges_x t; sg_ey : t_edges_y t' = t_edges_y t;
  sg_idx : dkeys (t_indices t') = dkeys (t_indices t) }.
Lemma same_grids_refl t : same_grids t t.
Proof. by split. Qed.
Lemma same_grids_trans a b c : same_grids a b -> same_grids b c -> same_grids a c.
Proof. intros [A1 A2 A3 A4 A5] [B1 B2 B3 B4 B5]. split; [congruence|intros r n; by rewrite B2, A2|congruence..]. Qed.
Lemma same_grids_pl t t' : same_grids t t' -> pl t -> pl t'.
Proof.
  intros [S1 S2 S3 S4 S5] [P1 P2 P3 P4]. split.
  - by rewrite S1.
  - by rewrite S5.
  - intros r Hr. rewrite S1 in Hr. destruct (P3 r Hr) as (H1 & H2 & H3 & n & Hn). rewrite S3, S4. split; [done|]. split; [done|].
    split; [apply dget_is_Some; rewrite S5; by apply dget_is_Some|]. exists n. by rewrite S2.
  - intros r n. rewrite S2. apply P4.
Qed.
Lemma same_grids_stored F t t' : same_grids t t' -> grid_stored F t -> grid_stored F t'.
Proof.
  intros [S1 S2 S3 S4 S5] [G1 G2 G3 G4 G5]. split.
  - intros r n. by rewrite S2.
  - intros r. rewrite S1, S3. apply G2.
  - intros r. rewrite S1, S4. apply G3.
  - intros r. rewrite S1. intros Hr. destruct (G4 r Hr) as (n & H1 & H2). exists n. by rewrite S2.
  - intros r n. rewrite S2. apply G5.
Qed.
Lemma not_slope name : name ∈ stored_layers -> name <> "x_slope" /\ name <> "y_slope".
Proof. intros H. apply elem_of_list_In in H. cbn in H. split; intros ->; intuition congruence. Qed.
Lemma clear_temp_grids t rs : pl t -> same_grids t (clear_temp_all t rs).
Proof.
  intros HP. rewrite clear_temp_all_eq. split; cbn [t_cells t_edges_x t_edges_y t_indices]; try done; [apply dkeys_clear_temp_cells|].
  intros r name. unfold layer_of. cbn [t_cells]. change (t_cells (t <| t_cells := ?c |>)) with c. rewrite dget_clear_temp_cells.
  destruct (dget (t_cells t) r) as [l|] eqn:E; [|done]. cbn [fmap option_fmap option_map].
  assert (HS : forall n, is_Some (dget l n) -> n <> "x_slope" /\ n <> "y_slope").
  { intros n Hn. apply not_slope. apply (pl_std _ HP r). unfold layer_of. by rewrite E. }
  clear E. revert l HS. induction rs as [|r' rs IH]; intros l HS; [done|]. cbn [foldl]. destruct (decide (r = r')); [|by apply IH].
  assert (HE : forall n, dget (clear_temp_layers l) n = dget l n).
  { intros n. rewrite dget_clear_temp_layers. destruct (dget l n) as [a|] eqn:En; [|by repeat destruct (decide _)].
    destruct (HS n) as [? ?]; [by rewrite En|]. by rewrite !decide_False. }
  rewrite IH; [apply HE|]. intros n. rewrite HE. apply HS.
Qed.
Lemma remove_grids t c : pl t -> same_grids t (t_remove_points t c).
Proof.
  intros HP. unfold t_remove_points. destruct (dget _ _) as [[s0 e0]|]; [|apply same_grids_refl]. destruct (t_data t); [|apply same_grids_refl]. cbv zeta.
  set (t1 := t <| t_container := _ |> <| t_indices := _ |>).
  assert (S1 : same_grids t t1) by (split; try done; apply dkeys_dmapv).
  eapply same_grids_trans; [exact S1|]. destruct (clear_temp_grids t1 (dkeys (t_indices t)) (same_grids_pl _ _ S1 HP)) as [X1 X2 X3 X4 X5]. by split.
Qed.
Lemma add_grids t d c : pl t -> same_grids t (t_add_points t d c).
Proof.
  intros HP. unfold t_add_points. destruct (t_data t) as [d0|].
  2: { split; try done. apply dkeys_dmapv. }
  cbv zeta. set (t1 := if dmem _ _ then _ else _).
  assert (S1 : same_grids t t1) by (unfold t1; destruct (dmem _ _); [by apply remove_grids|apply same_grids_refl]).
  set (t2 := t1 <| t_container := _ |> <| t_data := _ |> <| t_indices := _ |>).
  assert (S2 : same_grids t1 t2) by (split; try done; apply dkeys_dmapv).
  assert (S3 : same_grids t t2) by (by eapply same_grids_trans).
  eapply same_grids_trans; [exact S3|]. destruct (clear_temp_grids t2 (dkeys (t_indices t1)) (same_grids_pl _ _ S3 HP)) as [X1 X2 X3 X4 X5]. by split.
Qed.
Lemma new_pl x y s b : pl (new_tile x y s b).
Proof.
  split; try apply NoDup_nil_2.
  - intros r Hr. by apply not_elem_of_nil in Hr.
  - intros r n [? ?]. done.
Qed.
Lemma add_data t d c : is_Some (t_data (t_add_points t d c)).
Proof. unfold t_add_points. destruct (t_data t); [|done]. cbv zeta. rewrite clear_temp_all_eq. done. Qed.
Lemma remove_data t c : is_Some (t_data t) -> is_Some (t_data (t_remove_points t c)).
Proof. intros [d Hd]. unfold t_remove_points. rewrite Hd. by destruct (dget _ _) as [[? ?]|]. Qed.
Lemma grid_pl e t alg ro clear mode gp border t' r :
  good e t -> pl t -> known_alg alg -> (clear = true \/ same_kind (t_algorithm t) alg) ->
  t_grid e t alg ro clear mode gp border = Ok (t', r) ->
  good e t' /\ pl t' /\ t_data t' = t_data t /\ is_Some (t_data t') /\ t_algorithm t' = Some alg /\ same_frame t t'.
Proof.
  intros HG HP HA HK Hg. assert (HC : clear = true \/ compat e t alg) by (destruct HK; [by left|right; by apply compat_kind]).
  destruct (t_grid_inv _ _ _ _ _ _ _ _ _ _ HA Hg) as (_ & _ & (d & Hd) & _).
  destruct (t_grid_inv_ok _ _ _ _ _ _ _ _ _ _ HG HA HC Hg) as (l' & HT & _). pose proof (gt_good _ _ _ _ _ _ _ _ _ HT) as HG'.
  pose proof (gt_cells _ _ _ _ _ _ _ _ _ HT) as Hc.
  assert (HD : dkeys (t_cells (clear_temp_data t r)) = dkeys (t_cells t)) by (unfold clear_temp_data; cbn; apply dkeys_dmapkv).
  assert (HO : forall k n, is_Some (layer_of (clear_temp_data t r) k n) -> n ∈ stored_layers).
  { intros k n. change (clear_temp_data t r) with (clear_temp_all t [r]). rewrite (sg_layers _ _ (clear_temp_grids t [r] HP)). apply (pl_std _ HP). }
  split; [done|]. split; [|split; [apply HT|split; [rewrite (gt_data _ _ _ _ _ _ _ _ _ HT), Hd; done|split; apply HT]]].
  split.
  - rewrite Hc. apply NoDup_dset. destruct clear; [apply NoDup_nil_2|]. rewrite HD. apply (pl_nd _ HP).
  - rewrite (gt_idx _ _ _ _ _ _ _ _ _ HT). apply NoDup_dset, (pl_ni _ HP).
  - intros k [l Hl]%dget_is_Some. destruct (g_cells _ _ HG' k l Hl) as (G1 & G2 & G3 & G4 & a0 & G5 & G6 & G7 & G8). split; [by rewrite G3|]. split; [by rewrite G4|]. split; [done|].
    exists (t_depth_key t'). unfold layer_of. rewrite Hl. apply G7. by apply alg_keys_depth.
  - intros k n Hn. unfold layer_of in Hn. rewrite Hc, dget_dset in Hn. destruct (decide (k = r)) as [->|Hk].
    + apply (gt_keys _ _ _ _ _ _ _ _ _ HT) in Hn as [Hn|[_ Hn]]; [by eapply (alg_keys_stored e t)|]. apply (HO r). unfold layers_at in Hn. unfold layer_of.
      by destruct (dget _ r); [|destruct Hn].
    + destruct clear; [by destruct Hn|]. by apply (HO k).
Qed.
Lemma reload_grids m t : pl t -> same_grids t (t_reload m t).
Proof.
  intros HP. unfold t_reload. destruct (saves_grid m); [|apply same_grids_refl]. split; try done; [apply dkeys_dmapv|].
  intros r name. unfold layer_of. cbn [t_cells]. change (t_cells (t <| t_cells := ?c |>)) with c. rewrite dget_dmapv.
  destruct (dget (t_cells t) r) as [l|] eqn:E; [|done]. cbn [fmap option_fmap option_map]. rewrite dget_stored_part.
  destruct (decide _) as [|Hn]; [done|]. destruct (dget l name) eqn:En; [|done]. destruct Hn. apply (pl_std _ HP r). unfold layer_of. by rewrite E, En.
Qed.

(** ** Locations *)
(** The folder of a location holds its tile; there is none where there is no tile. *)
Definition slot_stored (F : fs) (o : option tile) : Prop :=
  match o with Some t => plain_tile t /\ tile_stored F t | None => F = [] end.
Lemma rm_all (F : fs) : fs_run F (save_tile None SavePoints) = [].
Proof.
  cbn. unfold fs_rm. induction F as [|kv F IH]; [done|]. rewrite filter_cons. rewrite decide_False; [done|].
  unfold under. by rewrite bool_decide_eq_true_2 by apply prefix_nil.
Qed.
Lemma save_points_slot F o t' : slot_stored F o -> is_Some (t_data t') ->
  (forall t, o = Some t -> same_grids t t') -> (o = None -> pl t' /\ t_cells t' = []) ->
  slot_stored (fs_run F (save_tile (Some t') SavePoints)) (Some t').
Proof.
  intros HS Hd H1 H2. assert (HP : plain_tile t' /\ grid_stored F t').
  { destruct o as [t|].
    - destruct HS as [HP HS]. apply plain_pl in HP as [HP _]. split; [apply plain_pl; split; [|done]; eapply same_grids_pl; [by apply H1|done]|].
      eapply same_grids_stored; [by apply H1|apply HS].
    - destruct (H2 eq_refl) as [HP Hc]. split; [by apply plain_pl|]. cbn in HS. subst F. split; rewrite ?Hc; try (intros r Hr; by apply not_elem_of_nil in Hr).
      + intros r n. unfold layer_of. by rewrite Hc.
      + apply (pl_std _ HP). }
  destruct HP as [HP HG]. split; [done|]. apply saved_stored; [done|]. split; [done|]. by intros _.
Qed.
Lemma save_grid_slot F t t' : slot_stored F (Some t) -> pl t' -> t_data t' = t_data t -> is_Some (t_data t') ->
  slot_stored (fs_run F (save_tile (Some t') SaveGrid)) (Some (t_reload SaveGrid t')).
Proof.
  intros [HP HS] HP' He Hd. assert (HPl : plain_tile t') by (by apply plain_pl).
  assert (HT : tile_stored (fs_run F (save_tile (Some t') SaveGrid)) t').
  { apply saved_stored; [done|]. split; [|done]. intros _. destruct (ts_data _ _ HS) as (d & H1 & H2). exists d. by rewrite He. }
  pose proof (reload_grids SaveGrid t' HP') as SG. split; [apply plain_pl; split; [by eapply same_grids_pl|]; by destruct (reload_fields SaveGrid t') as (_ & -> & _)|].
  destruct HT as [T1 T2 T3 T4 T5]. split.
  - done.
  - exact T2.
  - exact T3.
  - by eapply same_grids_stored.
  - intros r. rewrite (sg_cells _ _ SG). exact (T5 r).
Qed.

(** ** Grids *)
Notation loc x y := (FFolder (NTile x y)).
Record on_disk (g : sr_grid) (f : fs) : Prop := {
  od_tile x y t : has_tile g x y t -> slot_stored (fsub f (loc x y)) (Some t);
  od_none x y : (forall t, ~ has_tile g x y t) -> fsub f (loc x y) = [] }.
Definition distinct {T} (g : grid T) : Prop := forall j k xy, origin_at g j = Some xy -> origin_at g k = Some xy -> j = k.
Lemma distinct_geom {T} (g g' : grid T) : g_geom g' = g_geom g -> distinct g -> distinct g'.
Proof. intros E H. unfold distinct, origin_at in *. by rewrite E. Qed.
Lemma on_disk_has (g g' : sr_grid) f f' : (forall x y t, has_tile g' x y t <-> has_tile g x y t) ->
  (forall x y, fsub f' (loc x y) = fsub f (loc x y)) -> on_disk g f -> on_disk g' f'.
Proof.
  intros H1 H2 [D1 D2]. split.
  - intros x y t H. rewrite H2. apply D1. by apply H1.
  - intros x y H. rewrite H2. apply D2. intros t Ht. apply (H t). by apply H1.
Qed.
Lemma on_disk_at g f k x y : on_disk g f -> distinct g -> origin_at g k = Some (x, y) -> slot_stored (fsub f (loc x y)) (tile_at g k).
Proof.
  intros [D1 D2] HD Ho. destruct (tile_at g k) as [t|] eqn:E; [apply D1; by exists k|]. apply D2. intros t (j & Hj & Ht). rewrite (HD j k (x, y) Hj Ho) in Ht. congruence.
Qed.
(** One location changes. *)
Lemma on_disk_put (g g' : sr_grid) f k x y l : on_disk g f -> distinct g -> origin_at g k = Some (x, y) ->
  g_geom g' = g_geom g -> (forall j, j <> k -> tile_at g' j = tile_at g j) ->
  slot_stored (fs_run (fsub f (loc x y)) l) (tile_at g' k) -> on_disk g' (fs_run f (prims_in (loc x y) l)).
Proof.
  intros [D1 D2] HD Ho Hg Ht HS.
  assert (HO : forall j, origin_at g' j = origin_at g j) by (intros j; unfold origin_at; by rewrite Hg).
  split.
  - intros x' y' t (j & Hj & Hj'). rewrite HO in Hj. destruct (decide (j = k)) as [->|Hne].
    + rewrite Ho in Hj. injection Hj as <- <-. rewrite run_in. by rewrite Hj' in HS.
    + rewrite run_out; [apply D1; exists j; by rewrite <- Ht|]. intros [= <- <-]. by apply Hne, (HD j k (x, y)).
  - intros x' y' HN. destruct (decide ((x', y') = (x, y))) as [[= -> ->]|Hne].
    + rewrite run_in. destruct (tile_at g' k) as [t|] eqn:E; [|done]. destruct (HN t). exists k. by rewrite HO.
    + rewrite run_out by congruence. apply D2. intros t (j & Hj & Hj'). apply (HN t). exists j. rewrite HO. split; [done|]. rewrite Ht; [done|]. intros ->. congruence.
Qed.
Lemma tile_at_set_any {T} (g : grid T) k o : (k < tiles_size g)%nat -> tile_at (set_tile g k o) k = o.
Proof.
  unfold tiles_size, tile_at, set_tile. destruct g as [m ge mk [a|] dk]; cbn; [|lia]. intros Hk. by rewrite list_lookup_insert.
Qed.
Lemma on_disk_reload (g g1 : sr_grid) f k m : on_disk g f -> distinct g -> g_geom g1 = g_geom g -> g_disk g1 = true ->
  (forall j, j <> k -> tile_at g1 j = tile_at g j) -> (k < tiles_size g1)%nat ->
  (forall x y, origin_at g k = Some (x, y) -> slot_stored (fs_run (fsub f (loc x y)) (save_tile (tile_at g1 k) m)) (option_map (t_reload m) (tile_at g1 k))) ->
  let r := save_reload sr_ops g1 k m in exn_of r = None -> on_disk (st_of r) (fs_run f (ev_of r)).
Proof.
  intros HD Hd Hg Hk Ht Hsz HS r. unfold r, save_reload, save_tile_at, reload_at. rewrite Hk. cbn [sr_ops op_sr andb op_save op_reload].
  assert (HO : origin_at g1 k = origin_at g k) by (unfold origin_at; by rewrite Hg). rewrite HO. destruct (origin_at g k) as [[x y]|] eqn:Ho; [|done]. cbn [st_of ev_of exn_of]. intros _.
  eapply (on_disk_put g); [done|done|done| | |].
  - by rewrite set_tile_geom.
  - intros j Hj. rewrite tile_at_set_ne by done. by apply Ht.
  - assert (HE : tile_at (set_tile g1 k (option_map (t_reload m) (tile_at g1 k))) k = option_map (t_reload m) (tile_at g1 k)).
    { by apply tile_at_set_any. }
    rewrite HE. by apply HS.
Qed.

(** ** Loops *)
Lemma oloop_disk {A S} (step : S -> A -> out S) (l : list A) (Inv : list A -> S -> fs -> Prop) s f :
  Inv [] s f ->
  (forall dn a rest s f, l = dn ++ a :: rest -> Inv dn s f -> exn_of (step s a) = None -> Inv (dn ++ [a]) (st_of (step s a)) (fs_run f (ev_of (step s a)))) ->
  exn_of (oloop step l s) = None -> Inv l (st_of (oloop step l s)) (fs_run f (ev_of (oloop step l s))).
Proof.
  intros H0 Hstep. cut (forall dn l' s f, l = dn ++ l' -> Inv dn s f ->
    exn_of (oloop step l' s) = None -> Inv (dn ++ l') (st_of (oloop step l' s)) (fs_run f (ev_of (oloop step l' s)))).
  { intros H. by apply (H [] l s f). }
  intros dn l'. revert dn. induction l' as [|a l' IH]; intros dn s' f' Hsub HI; simpl.
  - by rewrite app_nil_r.
  - destruct (exn_of (step s' a)) eqn:He; [congruence|]. simpl. pose proof (Hstep dn a l' s' f' Hsub HI He) as HI'. rewrite run_app.
    replace (dn ++ a :: l') with ((dn ++ [a]) ++ l') in Hsub |- * by (by rewrite <- app_assoc).
    by apply IH.
Qed.
Lemma seq_at n dn k rest : seq 0 n = dn ++ k :: rest -> (k < n)%nat.
Proof. intros H. assert (Hk : k ∈ seq 0 n) by (rewrite H; apply elem_of_app; right; left). by apply elem_of_seq in Hk as [_ ?]. Qed.

(** ** The folder of the grid itself *)
Lemma save_grid_folders {T} (g : grid T) f n : fsub (fs_run f (save_grid g)) (FFolder n) = fsub f (FFolder n).
Proof.
  unfold save_grid. destruct (g_disk g); [|done]. unfold save_array. cbn [app fs_run foldl fs_step].
  assert (HW : forall f p l, head p <> Some (FFolder n) -> fsub (dset f p l) (FFolder n) = fsub f (FFolder n)).
  { intros f0 p l Hp. apply fsub_dset_other. intros q ->. done. }
  assert (HR : forall f k, fsub (fs_rm f [FGridArray k]) (FFolder n) = fsub f (FFolder n)).
  { intros f0 k. unfold fs_rm. apply (fsub_filter_other (under [FGridArray k])). intros q. by apply under_other. }
  repeat first [rewrite HW by done|rewrite HR]. destruct (fs_exists f []); [done|]. by rewrite HW.
Qed.
(** What the grid's folder holds besides the tiles: the arrays of [g], and attributes [m]. *)
Record arrays_stored {T} (g : grid T) (m : gmeta) (f : fs) : Prop := {
  as_dir : is_Some (dget f []);
  as_meta : leaf_at f FMeta (LGridMeta m);
  as_x : leaf_at f (FGridArray "tile_x_origin") (LOrigins (match g_geom g with Some ge => gx ge | None => Nd 0 0 [] end));
  as_y : leaf_at f (FGridArray "tile_y_origin") (LOrigins (match g_geom g with Some ge => gy ge | None => Nd 0 0 [] end));
  as_ex : leaf_at f (FGridArray "tile_edges_x") (LInts (match g_geom g with Some ge => gex ge | None => [] end));
  as_ey : leaf_at f (FGridArray "tile_edges_y") (LInts (match g_geom g with Some ge => gey ge | None => [] end));
  as_mask : leaf_at f (FGridArray "existing_tile_mask") (LMask (default (Nd 0 0 []) (g_mask g))) }.
Lemma run_write f p l : fs_run f [PWrite p l] = dset f p (File l).
Proof. done. Qed.
Lemma save_grid_stored {T} (g : grid T) f : g_disk g = true -> arrays_stored g (g_meta g) (fs_run f (save_grid g)).
Proof.
  intros Hd. unfold save_grid. rewrite Hd. set (A := fun (key : string) (l : leaf) => (FGridArray key, l)).
  set (ws := [A "tile_x_origin" (LOrigins (match g_geom g with Some ge => gx ge | None => Nd 0 0 [] end));
              A "tile_y_origin" (LOrigins (match g_geom g with Some ge => gy ge | None => Nd 0 0 [] end));
              A "tile_edges_x" (LInts (match g_geom g with Some ge => gex ge | None => [] end));
              A "tile_edges_y" (LInts (match g_geom g with Some ge => gey ge | None => [] end));
              A "existing_tile_mask" (LMask (default (Nd 0 0 []) (g_mask g)))]).
  match goal with |- arrays_stored _ _ (fs_run f ?l) => assert (HL : l = [PMkdir []] ++ arrays ws ++ [PWrite [FMeta] (LGridMeta (g_meta g))]) by done; rewrite HL; clear HL end.
  rewrite !run_app. set (f1 := fs_run f [PMkdir []]).
  assert (Hn : NoDup ws.*1).
  { cbn. repeat (apply NoDup_cons; split); try apply NoDup_nil_2; intros H; apply elem_of_list_In in H; cbn in H; intuition congruence. }
  assert (H1 : is_Some (dget f1 [])).
  { unfold f1. cbn. unfold fs_exists. rewrite dmem_dget. case_bool_decide; [done|]. by rewrite dget_dset_eq. }
  assert (HG : forall n l, n <> FMeta -> dget ws n = Some l -> leaf_at (fs_run (fs_run f1 (arrays ws)) [PWrite [FMeta] (LGridMeta (g_meta g))]) n l).
  { intros n l Hne Hl. unfold leaf_at. rewrite run_write, dget_dset_ne by congruence. rewrite arrays_run by done. by rewrite Hl. }
  split.
  - rewrite run_write, dget_dset_ne by done. rewrite arrays_top; [done|]. intros n _. done.
  - unfold leaf_at. by rewrite run_write, dget_dset_eq.
  - by apply HG.
  - by apply HG.
  - by apply HG.
  - by apply HG.
  - by apply HG.
Qed.
Lemma arrays_folder {T} (g : grid T) m f l x y : arrays_stored g m f -> arrays_stored g m (fs_run f (prims_in (loc x y) l)).
Proof. intros [A1 A2 A3 A4 A5 A6 A7]. unfold leaf_at in *. split; unfold leaf_at; by rewrite run_top. Qed.
Lemma arrays_same {T U} (g : grid T) (g' : grid U) m f : g_geom g' = g_geom g -> g_mask g' = g_mask g -> arrays_stored g m f -> arrays_stored g' m f.
Proof. intros E1 E2 [A1 A2 A3 A4 A5 A6 A7]. split; rewrite ?E1, ?E2; done. Qed.

(** ** Adding points *)
Definition with_flat (g : sr_grid) (r c : nat) (fl : list (option tile)) : sr_grid := g <| g_tiles := Some (Nd r c fl) |>.
Lemma with_flat_at g r c fl j : tile_at (with_flat g r c fl) j = mjoin (fl !! j).
Proof. done. Qed.
Lemma reload_points o : option_map (t_reload SavePoints) o = o.
Proof. by destruct o. Qed.
Lemma add_to_tile_disk g ge rows cols m a d bins fl ul f : g_geom g = Some ge -> distinct g -> on_disk (with_flat g rows cols fl) f ->
  let r := add_to_tile sr_ops m true ge a d bins fl ul in exn_of r = None ->
  on_disk (with_flat g rows cols (st_of r)) (fs_run f (ev_of r)) /\ length (st_of r) = length fl /\ (exists x y l, ev_of r = prims_in (loc x y) l).
Proof.
  intros Hg HD HO r. unfold r, add_to_tile. set (k := Z.to_nat ul). destruct (fl !! k) as [cur|] eqn:Ek; [|done].
  destruct (nflat (gx ge) !! k) as [x|] eqn:Ex; [|done]. destruct (nflat (gy ge) !! k) as [y|] eqn:Ey; [|done]. cbv zeta.
  cbn [sr_ops op_add op_build op_folder op_empty op_save op_reload op_sr st_of ev_of exn_of prims_in map app].
  unfold save_tile_at, reload_at. cbn [sr_ops op_sr op_save op_reload andb]. rewrite reload_points. intros _. cbn [st_of ev_of].
  assert (Hlen : (k < length fl)%nat) by (by eapply lookup_lt_Some).
  assert (Ho : origin_at (with_flat g rows cols fl) k = Some (x, y)) by (unfold origin_at, with_flat; cbn; by rewrite Hg, Ex, Ey).
  assert (HD' : distinct (with_flat g rows cols fl)) by done.
  pose proof (on_disk_at _ _ _ _ _ HO HD' Ho) as HS. rewrite with_flat_at, Ek in HS. cbn [mjoin option_join] in HS.
  split; [|split; [by rewrite insert_length|by exists x, y, (save_tile (if t_is_empty (t_add_points (default (new_tile x y (m_tile_size m) (m_backscatter m)) cur)
     (mask_select (map (λ b : Z, bool_decide (b = ul)) bins) d) (a_container (nested_args a))) then None else Some (t_add_points (default (new_tile x y (m_tile_size m) (m_backscatter m)) cur)
     (mask_select (map (λ b : Z, bool_decide (b = ul)) bins) d) (a_container (nested_args a)))) SavePoints)]].
  eapply (on_disk_put (with_flat g rows cols fl)); [done|done|done|done| |].
  - intros j Hj. rewrite !with_flat_at. by rewrite list_lookup_insert_ne.
  - rewrite with_flat_at, list_lookup_insert by done. cbn [mjoin option_join]. destruct (t_is_empty _); [apply rm_all|].
    apply (save_points_slot _ cur); [done|apply add_data| |].
    + intros t ->. cbn. apply add_grids. destruct HS as [HP _]. by apply plain_pl in HP as [? _].
    + intros ->. cbn [from_option id]. split; [eapply same_grids_pl; [|apply new_pl]; apply add_grids, new_pl|]. done.
Qed.
Lemma add_tiles_disk g d a f : distinct g -> g_disk g = true -> on_disk g f ->
  let r := add_points_to_tiles sr_ops g d a in exn_of r = None ->
  on_disk (st_of r) (fs_run f (ev_of r)) /\ arrays_stored (st_of r) (g_meta g) (fs_run f (ev_of r)) /\
  exists n, g_meta (st_of r) = g_meta g <| m_ntiles := n |>.
Proof.
  intros HD Hdisk HO r. unfold r, add_points_to_tiles. destruct (g_geom g) as [ge|] eqn:Hg; [|done]. destruct (g_tiles g) as [ts|] eqn:Ht; [|done].
  destruct (bin2d_with_indices _ _ _) as [bins|]; [|done]. cbv zeta. set (lp := oloop _ _ _). destruct (exn_of lp) eqn:He; [done|]. cbn [st_of ev_of exn_of]. intros _.
  rewrite run_app. set (f1 := fs_run f (save_grid g)).
  assert (H1 : on_disk (with_flat g (nrows ts) (ncols ts) (nflat ts)) f1).
  { eapply (on_disk_has g); [| |exact HO].
    - intros x y t. unfold has_tile, origin_at, tile_at, with_flat. cbn. by rewrite Ht.
    - intros x y. apply save_grid_folders. }
  assert (A1 : arrays_stored g (g_meta g) f1) by (by apply save_grid_stored).
  pose (Inv := fun (dn : list Z) (fl : list (option tile)) (f : fs) => on_disk (with_flat g (nrows ts) (ncols ts) fl) f /\ arrays_stored g (g_meta g) f).
  assert (HI : Inv (np_unique bins) (st_of lp) (fs_run f1 (ev_of lp))).
  { apply (oloop_disk _ _ Inv); [done| |done]. intros dn ul rest fl f2 _ [I1 I2] Hx. rewrite Hdisk in *.
    destruct (add_to_tile_disk g ge (nrows ts) (ncols ts) (g_meta g) a d bins fl ul f2 Hg HD I1 Hx) as (J1 & J2 & x & y & l & J3).
    split; [done|]. rewrite J3. by apply arrays_folder. }
  destruct HI as [I1 I2]. split; [|split].
  - eapply (on_disk_has (with_flat g (nrows ts) (ncols ts) (st_of lp))); [|done|exact I1]. done.
  - eapply (arrays_same g); [| |exact I2]; done.
  - by eexists.
Qed.

Lemma add_grown m0 rep (L : tile_laws sr_ops m0 rep) g ct seen ok d args : 0 < m_tile_size m0 -> m_can_grow m0 = true -> m_origin_x m0 = 0 -> m_origin_y m0 = 0 ->
  root_inv m0 rep g ct seen ok -> let r := g_add_points sr_ops g (GoodData d) args in exn_of r = None ->
  exists g3 lx ly nx ny, let r3 := add_points_to_tiles sr_ops g3 d args in exn_of r3 = None /\
    r = Out (st_of r3 <| g_meta := g_meta (st_of r3) <| m_mean_depth := batch_mean_depth d |> |>) (ev_of r3) None /\
    g_geom g3 = Some (std_geom lx ly (m_tile_size m0) nx ny) /\ g_disk g3 = g_disk g /\
    (is_Some (m_ext (g_meta g3)) /\ is_Some (m_width (g_meta g3)) /\ is_Some (m_height (g_meta g3))) /\
    (forall x y t, has_tile g3 x y t <-> has_tile g x y t) /\
    m_ntiles (g_meta g3) = m_ntiles (g_meta g) /\ m_mean_depth (g_meta g3) = m_mean_depth (g_meta g).
Proof.
  intros Hs Hgrow Hox Hoy HI r Hx.
  destruct (root_add sr_ops m0 rep L Hs Hgrow Hox Hoy g ct seen ok (GoodData d) args HI) as [(H1 & _)|(d' & m1 & [= <-] & Hd & Hfresh & Hu & _ & _ & _ & _)]; [done|].
  destruct (update_metadata_spec _ _ _ _ Hu) as (F & Ue & Uw & Uh & _ & Un & Uq & _ & _ & _ & _ & Uc & _).
  set (g1 := g <| g_meta := m1 |>). destruct HI as [[B1 B2 B3 B4] Hst].
  assert (Hm1 : meta_frame m0 (g_meta g1)) by (by eapply meta_frame_trans).
  assert (Hout : forall g2 g3, update_base_grid g1 d = (g2, None) -> place_tiles g2 = (g3, None) ->
    exn_of (add_points_to_tiles sr_ops g3 d args) = None /\
    r = Out (st_of (add_points_to_tiles sr_ops g3 d args) <| g_meta := g_meta (st_of (add_points_to_tiles sr_ops g3 d args)) <| m_mean_depth := batch_mean_depth d |> |>)
      (ev_of (add_points_to_tiles sr_ops g3 d args)) None).
  { intros g2 g3 K1 K2. assert (HX : exn_of (add_points_to_tiles sr_ops g3 d args) = None).
    { revert Hx. unfold r, g_add_points. rewrite (proj2 (dmem_false _ _) Hfresh), Hu. fold g1. rewrite K1, K2. destruct (exn_of (add_points_to_tiles sr_ops g3 d args)) eqn:E; [|done]. by rewrite E. }
    split; [done|]. exact (add_points_exn sr_ops g d args g2 g3 m1 Hfresh Hu K1 K2 HX). }
  destruct Hst as [(E1 & E2 & E3 & E4 & E5)|(Hne & lx & ly & nx & ny & a & P & Fr & N & S1 & S2 & S3)].
  - destruct (grow_empty sr_ops m0 rep L Hs Hgrow Hox Hoy g1 d Hm1 E1 Hd) as (lx & ly & nx & ny & Hnx & Hny & K1 & K2 & Fr & P & R). cbv zeta in *.
    destruct (Hout _ _ K1 K2) as [Y1 Y2]. eexists _, lx, ly, nx, ny. cbv zeta. split; [exact Y1|]. split; [exact Y2|]. split; [done|]. split; [done|].
    split; [destruct Fr as (_ & _ & -> & -> & ->); eauto|].
    split; [|by split; [exact Un|exact Uq]]. intros x y t. split; intros (k & _ & Ht); unfold tile_at in Ht.
    + cbn in Ht. destruct (replicate (ny * nx) None !! k) eqn:E; [|done]. apply lookup_replicate in E as [-> _]. done.
    + by rewrite E1 in Ht.
  - assert (Hnz : all_points ct <> []) by (rewrite all_points_nil_iff; done).
    assert (P1 : placed m0 rep g1 ct lx ly nx ny a) by (destruct P; by split).
    assert (Fr1 : framed m0 g1 lx ly nx ny).
    { destruct Fr as (F1 & F2 & F3 & F4 & F5). split; [done|]. split; [done|]. cbn. by rewrite Ue, Uw, Uh. }
    destruct (grow_placed sr_ops m0 rep L Hs Hgrow Hox Hoy g1 ct lx ly nx ny a d Hm1 P1 Fr1 Hnz Hd) as (lx' & ly' & nx' & ny' & r0 & c0 & k & a' & Hnx' & Hny' & K1 & K2 & Fr' & P' & R & Incl & Kl & Ex & Ey & Cx & Ry & Hmv & Hno). cbv zeta in *.
    destruct (Hout _ _ K1 K2) as [Y1 Y2]. eexists _, lx', ly', nx', ny'. cbv zeta. split; [exact Y1|]. split; [exact Y2|]. split; [done|]. split; [done|].
    split; [destruct Fr' as (_ & _ & -> & -> & ->); eauto|].
    split; [|by split; [exact Un|exact Uq]]. intros x y t.
    rewrite (has_tile_placed m0 rep _ _ _ _ _ _ _ _ _ _ P'), (has_tile_placed m0 rep _ _ _ _ _ _ _ _ _ _ P). split.
    + intros (r' & c' & Hr & Hc & -> & -> & Ht).
      destruct (decide (r0 <= r' < r0 + ny /\ c0 <= c' < c0 + nx)%nat) as [Hin|Hin]; [|by rewrite Hno in Ht].
      exists (r' - r0)%nat, (c' - c0)%nat. split; [lia|]. split; [lia|]. split; [nia|]. split; [nia|]. rewrite <- Hmv by lia. replace (r0 + (r' - r0))%nat with r' by lia. by replace (c0 + (c' - c0))%nat with c' by lia.
    + intros (r' & c' & Hr & Hc & -> & -> & Ht). exists (r0 + r')%nat, (c0 + c')%nat. split; [lia|]. split; [lia|]. split; [nia|]. split; [nia|]. by rewrite Hmv.
Qed.
Lemma std_distinct {T} (g : grid T) lx ly s nx ny : 0 < s -> g_geom g = Some (std_geom lx ly s nx ny) -> distinct g.
Proof.
  intros Hs Hg j k [x y] Hj Hk. pose (m0 := new_sr_meta 0 0 s false false).
  pose proof (std_origin_bound m0 lx ly nx ny _ _ g Hg Hj) as B1. pose proof (std_origin_bound m0 lx ly nx ny _ _ g Hg Hk) as B2.
  rewrite (std_origin m0 lx ly nx ny _ g Hg B1) in Hj. rewrite (std_origin m0 lx ly nx ny _ g Hg B2) in Hk. cbn in Hj, Hk.
  injection Hj as <- <-. injection Hk as E1 E2. assert (Hnx : nx <> 0%nat) by lia.
  rewrite (Nat.div_mod_eq j nx), (Nat.div_mod_eq k nx). f_equal; [f_equal|]; nia.
Qed.

(** ** Removing points *)
Lemma remove_tile_fields (g g1 : sr_grid) k : remove_tile g k = (g1, None) ->
  g_geom g1 = g_geom g /\ g_disk g1 = g_disk g /\ tiles_size g1 = tiles_size g /\ (forall j, j <> k -> tile_at g1 j = tile_at g j) /\
  ((k < tiles_size g)%nat -> tile_at g1 k = None) /\ exists n, g_meta g1 = g_meta g <| m_ntiles := n |>.
Proof.
  unfold remove_tile. set (mk := match g_mask g with Some b => _ | None => _ end). destruct mk as [b|]; [|done]. destruct (m_ntiles (g_meta g)) as [n|]; [|done]. intros [= <-].
  unfold set_tile, tiles_size, tile_at. destruct g as [m ge mk0 [a|] dk]; cbn.
  - split; [done|]. split; [done|]. split; [by rewrite insert_length|]. split; [intros j Hj; by rewrite list_lookup_insert_ne|].
    split; [intros Hk; by rewrite list_lookup_insert|]. by eexists.
  - split; [done|]. split; [done|]. split; [done|]. split; [done|]. split; [done|]. by eexists.
Qed.
Lemma set_tile_fields (g : sr_grid) k o : let g1 := set_tile g k o in
  g_geom g1 = g_geom g /\ g_disk g1 = g_disk g /\ g_meta g1 = g_meta g /\ g_mask g1 = g_mask g /\ tiles_size g1 = tiles_size g /\ (forall j, j <> k -> tile_at g1 j = tile_at g j).
Proof.
  cbv zeta. unfold set_tile, tiles_size, tile_at. destruct g as [m ge mk0 [a|] dk]; cbn; [|done].
  split; [done|]. split; [done|]. split; [done|]. split; [done|]. split; [by rewrite insert_length|intros j Hj; by rewrite list_lookup_insert_ne].
Qed.
Lemma save_reload_fields (g : sr_grid) k m : let g1 := st_of (save_reload sr_ops g k m) in
  g_geom g1 = g_geom g /\ g_disk g1 = g_disk g /\ g_meta g1 = g_meta g /\ g_mask g1 = g_mask g /\ tiles_size g1 = tiles_size g /\ (forall j, j <> k -> tile_at g1 j = tile_at g j).
Proof. cbv zeta. unfold save_reload. destruct (_ && _); [|done]. destruct (origin_at g k) as [[x y]|]; [|done]. apply set_tile_fields. Qed.
Lemma remove_from_disk c g k f : distinct g -> g_disk g = true -> (k < tiles_size g)%nat -> on_disk g f ->
  let r := remove_from_tile sr_ops c g k in exn_of r = None ->
  on_disk (st_of r) (fs_run f (ev_of r)) /\ g_geom (st_of r) = g_geom g /\ g_disk (st_of r) = true /\ tiles_size (st_of r) = tiles_size g /\
  exists n, g_meta (st_of r) = g_meta g <| m_ntiles := n |>.
Proof.
  intros HD Hdk Hk HO r. unfold r, remove_from_tile.
  assert (HM : forall (m : gmeta), exists n, m = m <| m_ntiles := n |>) by (intros []; by eexists).
  assert (HGen : forall g1 n, g_geom g1 = g_geom g -> g_disk g1 = g_disk g -> tiles_size g1 = tiles_size g -> (forall j, j <> k -> tile_at g1 j = tile_at g j) ->
    g_meta g1 = g_meta g <| m_ntiles := n |> ->
    (forall F, slot_stored F (tile_at g k) -> slot_stored (fs_run F (save_tile (tile_at g1 k) SavePoints)) (tile_at g1 k)) ->
    let r2 := save_reload sr_ops g1 k SavePoints in exn_of r2 = None ->
    on_disk (st_of r2) (fs_run f (ev_of r2)) /\ g_geom (st_of r2) = g_geom g /\ g_disk (st_of r2) = true /\ tiles_size (st_of r2) = tiles_size g /\
    exists n, g_meta (st_of r2) = g_meta g <| m_ntiles := n |>).
  { intros g1 n E1 E2 E3 E4 E5 HS r2 Hx. destruct (save_reload_fields g1 k SavePoints) as (F1 & F2 & F3 & F4 & F5 & F6). fold r2 in F1, F2, F3, F4, F5, F6.
    split; [|split; [congruence|]; split; [congruence|]; split; [congruence|]; exists n; congruence].
    apply (on_disk_reload g g1 f k SavePoints); [done|done|done|congruence|done|lia| |done].
    intros x y Ho. rewrite reload_points. apply HS. by apply on_disk_at. }
  destruct (tile_at g k) as [t|] eqn:Et; cbv zeta.
  2:{ cbn [exn_of st_of ev_of app]. intros Hx. destruct (HM (g_meta g)) as [n Hn]. apply (HGen g n); try done. rewrite Et. intros F _. apply rm_all. }
  cbn [sr_ops op_remove op_empty st_of ev_of exn_of prims_in map app].
  destruct (set_tile_fields g k (Some (t_remove_points t c))) as (S1 & S2 & S3 & S4 & S5 & S6).
  destruct (t_is_empty (t_remove_points t c)).
  - destruct (remove_tile (set_tile g k (Some (t_remove_points t c))) k) as [g2 [x|]] eqn:Er; [done|]. cbn [exn_of st_of ev_of app]. intros Hx.
    destruct (remove_tile_fields _ _ _ Er) as (R1 & R2 & R3 & R4 & R5 & n & R6). apply (HGen g2 n); try congruence.
    + intros j Hj. rewrite R4, S6 by done. done.
    + rewrite R5 by lia. intros F _. apply rm_all.
  - cbn [exn_of st_of ev_of app]. intros Hx. destruct (HM (g_meta g)) as [n Hn]. apply (HGen _ n); try congruence; [done|].
    rewrite tile_at_set_any by done. intros F HF. apply (save_points_slot F (Some t)); [done| | |done].
    + destruct HF as [HP _]. apply plain_pl in HP as [_ HP]. by apply remove_data.
    + intros t' [= <-]. apply remove_grids. destruct HF as [HP _]. by apply plain_pl in HP as [? _].
Qed.
Lemma remove_disk g c f : distinct g -> g_disk g = true -> on_disk g f -> c ∈ dkeys (m_container (g_meta g)) ->
  let r := g_remove_points sr_ops g c in exn_of r = None ->
  on_disk (st_of r) (fs_run f (ev_of r)) /\ arrays_stored (st_of r) (g_meta (st_of r)) (fs_run f (ev_of r)) /\ g_geom (st_of r) = g_geom g /\
  (m_ext (g_meta (st_of r)) = m_ext (g_meta g) /\ m_width (g_meta (st_of r)) = m_width (g_meta g) /\ m_height (g_meta (st_of r)) = m_height (g_meta g)).
Proof.
  intros HD Hdk HO Hc r. unfold r, g_remove_points. rewrite (proj2 (dmem_true _ _) Hc). cbn [negb]. set (g1 := g <| g_meta := _ |>).
  set (rl := if g_is_empty g1 then Out g1 [] None else oloop (remove_from_tile sr_ops c) (seq 0 (tiles_size g1)) g1).
  destruct (exn_of rl) eqn:Ex; [cbv beta iota; congruence|]. cbv zeta. cbn [st_of ev_of exn_of]. intros _.
  pose (Inv := fun (dn : list nat) (g' : sr_grid) (f' : fs) => on_disk g' f' /\ g_geom g' = g_geom g /\ g_disk g' = true /\ tiles_size g' = tiles_size g /\
     exists n, g_meta g' = g_meta g1 <| m_ntiles := n |>).
  assert (H0 : Inv [] g1 f).
  { split; [by eapply (on_disk_has g)|]. split; [done|]. split; [done|]. split; [done|]. exists (m_ntiles (g_meta g1)). by destruct g as [[] ? ? ? ?]. }
  assert (HI : exists dn, Inv dn (st_of rl) (fs_run f (ev_of rl))).
  { revert Ex. unfold rl. destruct (g_is_empty g1); [by exists []|]. intros Ex. exists (seq 0 (tiles_size g1)). apply (oloop_disk _ _ Inv); [done| |done].
    intros dn k rest g' f' Hk (I1 & I2 & I3 & I4 & n & I5) Hx. apply seq_at in Hk.
    assert (Hk' : (k < tiles_size g')%nat) by (rewrite I4; exact Hk).
    destruct (remove_from_disk c g' k f' (distinct_geom _ _ I2 HD) I3 Hk' I1 Hx) as (J1 & J2 & J3 & J4 & n' & J5).
    split; [done|]. split; [congruence|]. split; [done|]. split; [congruence|]. exists n'. by rewrite J5, I5. }
  destruct HI as (dn & I1 & I2 & I3 & I4 & n & I5). set (g2 := if g_is_empty (st_of rl) then st_of rl <| g_tiles := None |> else st_of rl).
  assert (D2 : g_disk g2 = true) by (unfold g2; destruct (g_is_empty (st_of rl)); exact I3).
  assert (G2 : g_geom g2 = g_geom g) by (unfold g2; destruct (g_is_empty (st_of rl)); exact I2).
  assert (M2 : g_meta g2 = g_meta (st_of rl)) by (unfold g2; by destruct (g_is_empty (st_of rl))).
  rewrite run_app. split; [|split; [by apply save_grid_stored|split; [done|rewrite M2, I5; done]]].
  eapply (on_disk_has (st_of rl)); [|intros x y; apply save_grid_folders|exact I1].
  intros x y t. unfold g2. destruct (g_is_empty (st_of rl)) eqn:Ee; [|done]. split; [by intros (k & _ & Hk)|].
  intros (k & _ & Hk). exfalso. revert Ee Hk. unfold g_is_empty, tile_at. destruct (g_tiles (st_of rl)) as [a|]; [|done].
  intros Ee Hk. destruct (nflat a !! k) as [[t'|]|] eqn:El; try done. rewrite forallb_forall in Ee.
  specialize (Ee (Some t')). feed specialize Ee; [apply elem_of_list_In; by eapply elem_of_list_lookup_2|done].
Qed.

(** ** Gridding *)
Section gridding.
  Context (e : env) (a : gargs) (HA : known_args a).
  Definition ready (t : tile) : Prop := good e t /\ (ga_clear a = true \/ same_kind (t_algorithm t) (ga_alg a)).
  Record gstate (g g' : sr_grid) (f : fs) : Prop := {
    gs_geom : g_geom g' = g_geom g; gs_disk : g_disk g' = g_disk g; gs_size : tiles_size g' = tiles_size g;
    gs_on : on_disk g' f; gs_ready : forall k t, tile_at g' k = Some t -> ready t;
    gs_meta : exists rz, g_meta g' = g_meta g <| m_rezs := rz |> }.
  Lemma store_gstate g g' f k t t1 g1 ro clear mode gp border r : distinct g -> g_disk g = true -> (k < tiles_size g)%nat -> (exists xy, origin_at g k = Some xy) ->
    gstate g g' f -> tile_at g' k = Some t -> (clear = true \/ clear = ga_clear a) -> t_grid e t (ga_alg a) ro clear mode gp border = Ok (t1, r) ->
    g_geom g1 = g_geom g' -> g_disk g1 = g_disk g' -> tiles_size g1 = tiles_size g' -> (forall j, j <> k -> tile_at g1 j = tile_at g' j) -> tile_at g1 k = Some t1 ->
    (exists rz, g_meta g1 = g_meta g' <| m_rezs := rz |>) ->
    let r2 := save_reload sr_ops g1 k SaveGrid in exn_of r2 = None ->
    gstate g (st_of r2) (fs_run f (ev_of r2)) /\ forall j, j <> k -> tile_at (st_of r2) j = tile_at g' j.
  Proof using HA.
    intros HD Hdk Hk [[x y] Ho] [S1 S2 S3 S4 S5 [rz S6]] Ht Hc Hg E1 E2 E3 E4 E5 [rz' E6] r2 Hx.
    destruct (save_reload_fields g1 k SaveGrid) as (F1 & F2 & F3 & F4 & F5 & F6). fold r2 in F1, F2, F3, F4, F5, F6.
    destruct (S5 k t Ht) as [HG HK].
    assert (Ho' : origin_at g' k = Some (x, y)) by (unfold origin_at in *; by rewrite S1).
    assert (HD' : distinct g') by (by eapply distinct_geom).
    pose proof (on_disk_at _ _ _ _ _ S4 HD' Ho') as HS. rewrite Ht in HS.
    assert (HP : pl t) by (destruct HS as [HP _]; by apply plain_pl in HP as [? _]).
    assert (HC : clear = true \/ same_kind (t_algorithm t) (ga_alg a)) by (destruct Hc as [?| ->]; [by left|done]).
    destruct (grid_pl _ _ _ _ _ _ _ _ _ _ HG HP (proj1 (known_elem _) HA) HC Hg) as (G1 & G2 & G3 & G4 & G5 & _).
    assert (HT : tile_at (st_of r2) k = Some (t_reload SaveGrid t1)).
    { unfold r2, save_reload. unfold r2, save_reload in Hx. rewrite E2, S2, Hdk in *. cbn [andb op_sr sr_ops] in *.
      assert (Ho1 : origin_at g1 k = Some (x, y)) by (unfold origin_at in *; by rewrite E1). rewrite Ho1. cbn [st_of].
      rewrite tile_at_set_any by lia. by rewrite E5. }
    split; [|intros j Hj; rewrite F6 by done; by apply E4]. split; [congruence..| | |].
    - apply (on_disk_reload g' g1 f k SaveGrid); [done|done|done|congruence|done|lia| |done].
      intros x' y' Hxy. rewrite Ho' in Hxy. injection Hxy as <- <-. rewrite E5. cbn [option_map]. by apply (save_grid_slot _ t).
    - intros j t' Hj. destruct (decide (j = k)) as [->|Hne]; [|rewrite F6, E4 in Hj by done; by eapply S5].
      rewrite HT in Hj. injection Hj as <-. split; [by apply good_reload|]. right. destruct (reload_fields SaveGrid t1) as (_ & _ & _ & _ & ->). by rewrite G5.
    - exists rz'. by rewrite F3, E6, S6.
  Qed.
  Lemma note_gstate g g' f rs : gstate g g' f -> gstate g (note_rezs g' rs) f.
  Proof. intros [S1 S2 S3 S4 S5 [rz S6]]. split; try done; [by eapply (on_disk_has g')|]. eexists. unfold note_rezs. cbn. rewrite S6. done. Qed.
  Lemma run_gstate g g' f f' : f' = f -> gstate g g' f -> gstate g g' f'.
  Proof. by intros ->. Qed.

  Lemma grid_step_disk g auto rez g' clear f k : distinct g -> g_disk g = true -> (forall k, (k < tiles_size g)%nat -> exists xy, origin_at g k = Some xy) ->
    (k < tiles_size g)%nat -> gstate g g' f -> (clear = true \/ clear = ga_clear a) ->
    let r := grid_step sr_ops e a auto rez (g', clear) k in exn_of r = None ->
    gstate g (st_of r).1 (fs_run f (ev_of r)) /\ ((st_of r).2 = true \/ (st_of r).2 = ga_clear a).
  Proof using HA.
    intros HD Hdk HO Hk HS Hc r. unfold r, grid_step. destruct (tile_at g' k) as [t|] eqn:Et.
    2:{ cbv zeta. cbn [st_of ev_of exn_of fst snd]. intros Hx. split; [|done]. destruct HS as [S1 S2 S3 S4 S5 [rz S6]].
        destruct (save_reload_fields g' k SaveGrid) as (F1 & F2 & F3 & F4 & F5 & F6). split; [congruence..| | |].
        - apply (on_disk_reload g' g' f k SaveGrid); [done|by eapply distinct_geom|done|congruence|done|lia| |done]. intros x y _. rewrite Et. apply rm_all.
        - intros j t Hj. destruct (decide (j = k)) as [->|Hne]; [|rewrite F6 in Hj by done; by eapply S5]. exfalso. revert Hj. unfold save_reload.
          destruct (_ && _); [|cbn; congruence]. destruct (origin_at g' k) as [[x y]|]; [|cbn; congruence]. cbn [st_of]. rewrite tile_at_set_any by lia. rewrite Et. unfold reload_at. by destruct (_ && _).
        - exists rz. congruence. }
    destruct (skip_tile sr_ops a clear t); [cbn [st_of ev_of exn_of fst snd]; intros _; split; [by apply note_gstate|done]|].
    cbv zeta. destruct (border_for _ _ _ _ _) as [bd|]; [|done].
    cbn [sr_ops op_grid ga_alg ga_rez ga_clear ga_mode ga_params ga_border].
    set (clear' := next_clear sr_ops a clear).
    assert (Hc' : clear' = true \/ clear' = ga_clear a) by (unfold clear', next_clear; destruct (_ && _); [by left|done]).
    destruct (t_grid e t _ _ _ _ _ _) as [[t1 r1]|x] eqn:Hg; [|done]. cbn [st_of ev_of exn_of prims_in map app fst snd]. intros Hx. split; [|done].
    destruct (set_tile_fields g' k (Some t1)) as (T1 & T2 & T3 & T4 & T5 & T6).
    eapply (store_gstate g g' f k t t1 (note_rezs (set_tile g' k (Some t1)) [r1])); [done|done|done|by apply HO|done|done|exact Hc'|exact Hg|done|done|done|done| | |done].
    - change (tile_at (set_tile g' k (Some t1)) k = Some t1). apply tile_at_set_any. by rewrite (gs_size _ _ _ HS).
    - eexists. unfold note_rezs. cbn. rewrite T3. done.
  Qed.
  Lemma regular_disk g auto rez f : distinct g -> g_disk g = true -> (forall k, (k < tiles_size g)%nat -> exists xy, origin_at g k = Some xy) -> gstate g g f ->
    let r := grid_regular sr_ops e g a auto rez in exn_of r = None ->
    gstate g (st_of r) (fs_run f (ev_of r)) /\ arrays_stored (st_of r) (g_meta (st_of r)) (fs_run f (ev_of r)).
  Proof using HA.
    intros HD Hdk HO HS r. unfold r, grid_regular. set (lp := oloop _ _ _). destruct (exn_of lp) eqn:Ex; [done|]. cbv zeta. cbn [st_of ev_of exn_of]. intros _.
    pose (Inv := fun (dn : list nat) (s : sr_grid * bool) (f' : fs) => gstate g s.1 f' /\ (s.2 = true \/ s.2 = ga_clear a)).
    assert (HI : Inv (seq 0 (tiles_size g)) (st_of lp) (fs_run f (ev_of lp))).
    { apply (oloop_disk _ _ Inv); [split; [done|by right]| |done]. intros dn k rest [g' c] f' Hk [I1 I2] Hx. apply seq_at in Hk. by apply (grid_step_disk g auto rez). }
    destruct HI as [HI _]. rewrite run_app. split; [|apply save_grid_stored; cbn; by rewrite (gs_disk _ _ _ HI)].
    destruct HI as [S1 S2 S3 S4 S5 [rz S6]]. split; try done.
    - eapply (on_disk_has (st_of lp).1); [done|intros x y; apply save_grid_folders|done].
    - eexists. unfold finish_grid. cbn. rewrite S6. done.
  Qed.
  Definition job_ok (g' : sr_grid) (j : job) : Prop :=
    tile_at g' (j_idx j) = Some (j_tile j) /\ (j_idx j < tiles_size g')%nat /\ ga_alg (j_args j) = ga_alg a /\
    (ga_clear (j_args j) = true \/ ga_clear (j_args j) = ga_clear a).
  Lemma first_exn_none (l : list (option exn)) : first_exn l = None -> Forall (fun x => x = None) l.
  Proof. induction l as [|[x|] l IH]; intros H; [constructor|done|]. constructor; [done|]. by apply IH. Qed.
  Lemma jobs_disk g g' f js : distinct g -> g_disk g = true -> (forall k, (k < tiles_size g)%nat -> exists xy, origin_at g k = Some xy) -> gstate g g' f ->
    NoDup (map j_idx js) -> Forall (job_ok g') js ->
    let r := run_jobs sr_ops e g' js in exn_of r = None -> gstate g (st_of r) (fs_run f (ev_of r)).
  Proof using HA.
    intros HD Hdk HO HS Hnd Hjs r. unfold r, run_jobs. set (F := fun j : job => op_grid sr_ops e (j_tile j) (j_args j)).
    assert (Hev : concat (zip_with (fun j (r : out tile * list Z) => prims_in (FFolder (op_folder sr_ops (j_tile j))) (ev_of r.1)) js (map F js)) = []).
    { clear. induction js as [|j js IH]; [done|]. cbn [map zip_with concat]. rewrite IH, app_nil_r. unfold F. cbn [sr_ops op_grid]. by destruct (t_grid _ _ _ _ _ _ _ _) as [[]|]. }
    cbv zeta. rewrite Hev. destruct (first_exn _) eqn:Ef; [done|]. apply first_exn_none in Ef.
    assert (Hz : zip (map j_idx js) (map (fun r : out tile * list Z => st_of r.1) (map F js)) = map (fun j => (j_idx j, st_of (F j).1)) js).
    { clear. induction js as [|j js IH]; [done|]. cbn [map zip zip_with]. f_equal. exact IH. }
    rewrite Hz. set (lp := oloop _ _ _). destruct (exn_of lp) eqn:Ex; [done|]. cbn [st_of ev_of exn_of app]. intros _. apply note_gstate.
    pose (Inv := fun (dn : list (nat * tile)) (s : sr_grid) (f' : fs) => gstate g s f' /\ forall k, k ∉ dn.*1 -> tile_at s k = tile_at g' k).
    assert (HI : Inv (map (fun j => (j_idx j, st_of (F j).1)) js) (st_of lp) (fs_run f (ev_of lp))).
    { apply (oloop_disk _ _ Inv); [done| |done]. intros dn [k t1] rest s f' Hl [I1 I2] Hx.
      assert (Hin : (k, t1) ∈ map (fun j => (j_idx j, st_of (F j).1)) js) by (rewrite Hl; apply elem_of_app; right; left).
      assert (Hk : k ∉ dn.*1).
      { assert (HN : NoDup (map (fun j => (j_idx j, st_of (F j).1)) js).*1).
        { replace ((map (fun j => (j_idx j, st_of (F j).1)) js).*1) with (map j_idx js); [done|]. clear. induction js as [|j js IH]; [done|]. cbn. by f_equal. }
        rewrite Hl, fmap_app in HN. cbn in HN. apply NoDup_app in HN as (_ & HN & _). intros Hk. apply (HN k Hk). left. }
      apply elem_of_list_fmap in Hin as (j & [= -> ->] & Hj). rewrite Forall_forall in Hjs. destruct (Hjs j Hj) as (J1 & J2 & J3 & J4).
      assert (HT : exists r1, t_grid e (j_tile j) (ga_alg a) (ga_rez (j_args j)) (ga_clear (j_args j)) (ga_mode (j_args j)) (ga_params (j_args j)) (ga_border (j_args j)) = Ok (st_of (F j).1, r1)).
      { rewrite Forall_forall in Ef. assert (H1 : exn_of (F j).1 = None).
        { apply Ef. apply elem_of_list_fmap. exists (F j). split; [done|]. apply elem_of_list_fmap. by exists j. }
        revert H1. unfold F. cbn [sr_ops op_grid]. rewrite J3. destruct (t_grid _ _ _ _ _ _ _ _) as [[t1 r1]|]; [|done]. intros _. by exists r1. }
      destruct HT as [r1 HT]. destruct (set_tile_fields s (j_idx j) (Some (st_of (F j).1))) as (T1 & T2 & T3 & T4 & T5 & T6).
      assert (Hk2 : (j_idx j < tiles_size g)%nat) by (by rewrite <- (gs_size _ _ _ HS)).
      assert (Ht : tile_at s (j_idx j) = Some (j_tile j)) by (by rewrite I2).
      assert (Hset : tile_at (set_tile s (j_idx j) (Some (st_of (F j).1))) (j_idx j) = Some (st_of (F j).1)) by (apply tile_at_set_any; by rewrite (gs_size _ _ _ I1)).
      assert (Hm : exists rz, g_meta (set_tile s (j_idx j) (Some (st_of (F j).1))) = g_meta s <| m_rezs := rz |>).
      { rewrite T3. exists (m_rezs (g_meta s)). by destruct (g_meta s). }
      destruct (store_gstate g s f' (j_idx j) (j_tile j) _ (set_tile s (j_idx j) (Some (st_of (F j).1))) _ _ _ _ _ _ HD Hdk Hk2 (HO _ Hk2) I1 Ht J4 HT T1 T2 T5 T6 Hset Hm Hx) as [K1 K2].
      split; [exact K1|]. intros k. rewrite fmap_app. cbn. rewrite not_elem_of_app, elem_of_list_singleton. intros [N1 N2]. unfold store_result. cbn [fst snd]. rewrite K2 by done. by apply I2. }
    apply HI.
  Qed.
  Lemma parallel_step_disk n g auto rez g' clear js f k : distinct g -> g_disk g = true -> (forall k, (k < tiles_size g)%nat -> exists xy, origin_at g k = Some xy) ->
    (k < tiles_size g)%nat -> gstate g g' f -> (clear = true \/ clear = ga_clear a) -> NoDup (map j_idx js) -> k ∉ map j_idx js -> Forall (job_ok g') js ->
    let r := parallel_step sr_ops e n a auto rez (g', clear, js) k in exn_of r = None ->
    gstate g (st_of r).1.1 (fs_run f (ev_of r)) /\ ((st_of r).1.2 = true \/ (st_of r).1.2 = ga_clear a) /\
    NoDup (map j_idx (st_of r).2) /\ (forall i, i ∈ map j_idx (st_of r).2 -> i ∈ map j_idx js \/ i = k) /\ Forall (job_ok (st_of r).1.1) (st_of r).2.
  Proof using HA.
    intros HD Hdk HO Hk HS Hc Hnd Hnk Hjs r. unfold r, parallel_step. destruct (tile_at g' k) as [t|] eqn:Et.
    2:{ intros _. cbn [st_of ev_of fst snd]. split; [done|]. split; [done|]. split; [done|]. split; [by left|]. exact Hjs. }
    destruct (skip_tile sr_ops a clear t).
    { intros _. cbn [st_of ev_of fst snd]. split; [by apply note_gstate|]. split; [done|]. split; [done|]. split; [by left|]. exact Hjs. }
    cbv zeta. destruct (border_for _ _ _ _ _) as [bd|]; [|done]. set (clear' := next_clear sr_ops a clear).
    assert (Hc' : clear' = true \/ clear' = ga_clear a) by (unfold clear', next_clear; destruct (_ && _); [by left|done]).
    set (js' := js ++ _).
    assert (Hnd' : NoDup (map j_idx js')).
    { unfold js'. rewrite map_app. cbn. apply NoDup_app. split; [done|]. split; [|apply NoDup_singleton]. by intros i Hi ->%elem_of_list_singleton. }
    assert (Hjs' : Forall (job_ok g') js').
    { apply Forall_app. split; [done|]. apply Forall_singleton. split; [done|]. cbn. split; [by rewrite (gs_size _ _ _ HS)|]. done. }
    destruct (_ =? n)%nat.
    - cbn [st_of ev_of exn_of fst snd]. intros Hx. split; [by apply jobs_disk|]. split; [done|]. split; [apply NoDup_nil_2|]. split; [intros i Hi; by apply not_elem_of_nil in Hi|constructor].
    - cbn [st_of ev_of exn_of fst snd]. intros _. split; [done|]. split; [done|]. split; [done|]. split; [|done].
      intros i. unfold js'. rewrite map_app. cbn. by rewrite elem_of_app, elem_of_list_singleton.
  Qed.
  Lemma parallel_disk n g auto rez f : distinct g -> g_disk g = true -> (forall k, (k < tiles_size g)%nat -> exists xy, origin_at g k = Some xy) -> gstate g g f ->
    let r := grid_parallel sr_ops e n g a auto rez in exn_of r = None ->
    gstate g (st_of r) (fs_run f (ev_of r)) /\ arrays_stored (st_of r) (g_meta (st_of r)) (fs_run f (ev_of r)).
  Proof using HA.
    intros HD Hdk HO HS r. unfold r, grid_parallel. set (lp := oloop _ _ _). destruct (exn_of lp) eqn:Ex; [done|]. cbv zeta.
    pose (Inv := fun (dn : list nat) (s : sr_grid * bool * list job) (f' : fs) => gstate g s.1.1 f' /\ (s.1.2 = true \/ s.1.2 = ga_clear a) /\
      NoDup (map j_idx s.2) /\ (forall i, i ∈ map j_idx s.2 -> i ∈ dn) /\ Forall (job_ok s.1.1) s.2).
    assert (HI : Inv (seq 0 (tiles_size g)) (st_of lp) (fs_run f (ev_of lp))).
    { apply (oloop_disk _ _ Inv); [|intros dn k rest [[g' c] js] f' Hk (I1 & I2 & I3 & I4 & I5) Hx|done].
      - split; [done|]. split; [by right|]. split; [apply NoDup_nil_2|]. split; [intros i Hi; by apply not_elem_of_nil in Hi|constructor].
      - assert (Hnk : k ∉ dn).
        { pose proof (NoDup_seq 0 (tiles_size g)) as HN. rewrite Hk in HN. apply NoDup_app in HN as (_ & HN & _). intros Hd. apply (HN k Hd). left. }
        apply seq_at in Hk. cbn [fst snd] in *.
        destruct (parallel_step_disk n g auto rez g' c js f' k HD Hdk HO Hk I1 I2 I3) as (J1 & J2 & J3 & J4 & J5); [intros Hi; by apply Hnk, I4|done|done|].
        split; [done|]. split; [done|]. split; [done|]. split; [|done]. intros i Hi. rewrite elem_of_app, elem_of_list_singleton. destruct (J4 i Hi) as [H|H]; [left; by apply I4|by right]. }
    destruct HI as (I1 & I2 & I3 & I4 & I5).
    assert (HE : forall r2, exn_of r2 = None -> gstate g (st_of r2) (fs_run (fs_run f (ev_of lp)) (ev_of r2)) ->
      let g1 := finish_grid (st_of r2) in gstate g g1 (fs_run f (ev_of lp ++ ev_of r2 ++ save_grid g1)) /\ arrays_stored g1 (g_meta g1) (fs_run f (ev_of lp ++ ev_of r2 ++ save_grid g1))).
    { intros r2 _ HG g1. rewrite !run_app. split; [|apply save_grid_stored; cbn; by rewrite (gs_disk _ _ _ HG)].
      destruct HG as [S1 S2 S3 S4 S5 [rz S6]]. split; try done.
      - eapply (on_disk_has (st_of r2)); [done|intros x y; apply save_grid_folders|done].
      - eexists. unfold g1, finish_grid. cbn. rewrite S6. done. }
    destruct ((st_of lp).2) as [|j js] eqn:Ejs.
    - cbn [st_of ev_of exn_of]. intros _. apply (HE (Out (st_of lp).1.1 [] None)); done.
    - set (r2 := run_jobs _ _ _ _). destruct (exn_of r2) eqn:E2; [done|]. cbn [st_of ev_of exn_of]. intros _. apply HE; [done|]. by apply jobs_disk.
  Qed.
  Lemma grid_disk g f dask : distinct g -> g_disk g = true -> (forall k, (k < tiles_size g)%nat -> exists xy, origin_at g k = Some xy) -> on_disk g f ->
    (forall k t, tile_at g k = Some t -> ready t) ->
    let r := g_grid sr_ops e g a dask in exn_of r = None ->
    on_disk (st_of r) (fs_run f (ev_of r)) /\ arrays_stored (st_of r) (g_meta (st_of r)) (fs_run f (ev_of r)) /\ g_geom (st_of r) = g_geom g /\
    (m_ext (g_meta (st_of r)) = m_ext (g_meta g) /\ m_width (g_meta (st_of r)) = m_width (g_meta g) /\ m_height (g_meta (st_of r)) = m_height (g_meta g)).
  Proof using HA.
    intros HD Hdk HO HS HR r. unfold r, g_grid. cbv zeta. destruct (_ && _); [done|]. destruct (g_is_empty _); [done|].
    destruct (match ga_rez a with Some r => _ | None => _ end) as [rez|]; [|done].
    set (g2 := match ga_rez a with Some _ => _ | None => _ end). set (g3 := g2 <| g_meta := _ |>). set (auto := match ga_rez a with Some _ => _ | None => _ end).
    assert (H3 : g_geom g3 = g_geom g /\ g_disk g3 = g_disk g /\ g_tiles g3 = g_tiles g /\
      m_ext (g_meta g3) = m_ext (g_meta g) /\ m_width (g_meta g3) = m_width (g_meta g) /\ m_height (g_meta g3) = m_height (g_meta g)) by (unfold g3, g2; by destruct (ga_rez a)).
    destruct H3 as (E1 & E2 & E3 & E4 & E5 & E6). clearbody g3. clear g2.
    assert (Hat : forall k, tile_at g3 k = tile_at g k) by (intros k; unfold tile_at; by rewrite E3).
    assert (Hor : forall k, origin_at g3 k = origin_at g k) by (intros k; unfold origin_at; by rewrite E1).
    assert (Hsz : tiles_size g3 = tiles_size g) by (unfold tiles_size; by rewrite E3).
    assert (HD3 : distinct g3) by (by eapply distinct_geom).
    assert (HO3 : forall k, (k < tiles_size g3)%nat -> exists xy, origin_at g3 k = Some xy) by (intros k; rewrite Hsz, Hor; apply HO).
    assert (HG3 : gstate g3 g3 f).
    { split; try done.
      - eapply (on_disk_has g); [|done|done]. intros x y t. unfold has_tile. by setoid_rewrite Hat; setoid_rewrite Hor.
      - intros k t. rewrite Hat. apply HR.
      - exists (m_rezs (g_meta g3)). by destruct (g_meta g3). }
    assert (HF : forall r, gstate g3 (st_of r) (fs_run f (ev_of r)) /\ arrays_stored (st_of r) (g_meta (st_of r)) (fs_run f (ev_of r)) ->
      on_disk (st_of r) (fs_run f (ev_of r)) /\ arrays_stored (st_of r) (g_meta (st_of r)) (fs_run f (ev_of r)) /\ g_geom (st_of r) = g_geom g /\
      (m_ext (g_meta (st_of r)) = m_ext (g_meta g) /\ m_width (g_meta (st_of r)) = m_width (g_meta g) /\ m_height (g_meta (st_of r)) = m_height (g_meta g))).
    { intros r0 [[S1 S2 S3 S4 S5 [rz S6]] HAr]. split; [done|]. split; [done|]. split; [congruence|]. rewrite S6. cbn. done. }
    destruct dask as [n|]; [destruct (m_ntiles (g_meta g3)); [|done]|]; intros Hx; apply HF; [apply parallel_disk|apply regular_disk]; try done; congruence.
  Qed.
End gridding.
