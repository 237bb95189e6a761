(** Tiles after any calls, failed or with unknown algorithms; gridding with clear_existing recovers (C95). *)
From Coq Require Import Lqa.
From Verif Require Import Py Nd Numpy Point Bin Algorithms Tile TileFail Time Meta Disk Grid GridRun GridQuery GridOps Spec TileExec PyFacts NdFacts NumpyFacts AlgFacts BinFacts TileFacts TileGridFacts TileSpecFacts TileRunFacts TileHistFacts
  TilePropFacts TileQueryFacts GridBaseFacts GridPlaceFacts GridInvFacts GridRootFacts GridEvolveFacts GridSrFacts GridPropFacts GridHistFacts GridRunFacts GridCleanFacts GridUpdateFacts.
Open Scope Z_scope.

(** What the points, cell indices and edges of a tile satisfy; nothing is said about its layers. *)
Record sound (t : tile) : Prop := {
  sd_rep : exists ct, tile_rep t ct;
  sd_cache : cache_ok t;
  sd_size : 0 < t_size t;
  sd_in : Forall (in_tile t) (pts t);
  sd_ex : forall r ex, dget (t_edges_x t) r = Some ex -> 0 < r /\ ex = tile_edges (t_min_x t) r (ncell t r);
  sd_ey : forall r ey, dget (t_edges_y t) r = Some ey -> 0 < r /\ ey = tile_edges (t_min_y t) r (ncell t r) }.

Lemma sound_good e t : sound t -> good e (clear_grid t).
Proof.
  intros [(ct & [H1 H2 H3 H4]) S2 S3 S4 _ _]. split; try done.
  exists ct. by split.
Qed.
Lemma rep_same t t' ct : t_data t' = t_data t -> t_container t' = t_container t -> tile_rep t ct -> tile_rep t' ct.
Proof. intros H1 H2 [R1 R2 R3 R4]. split; unfold pts in *; rewrite ?H1, ?H2; done. Qed.
Lemma cache_same t t' : same_frame t t' -> t_data t' = t_data t -> t_indices t' = t_indices t -> cache_ok t -> cache_ok t'.
Proof.
  intros F H1 H2 HC r idx. rewrite H2. intros H%HC. unfold pts. rewrite H1. eapply Forall2_impl; [exact H|]. cbv beta. intros p i [->| ->]; [by left|right].
  symmetry. by apply same_frame_cellno.
Qed.
Lemma sound_same t t' : same_frame t t' -> t_data t' = t_data t -> t_container t' = t_container t -> t_indices t' = t_indices t ->
  t_edges_x t' = t_edges_x t -> t_edges_y t' = t_edges_y t -> sound t -> sound t'.
Proof.
  intros F H1 H2 H3 H4 H5 [(ct & S1) S2 S3 S4 S5 S6]. pose proof F as (F1 & F2 & F3 & F4).
  split; [exists ct; by eapply (rep_same t)|by eapply cache_same|congruence| | |].
  - unfold pts. rewrite H1. eapply Forall_impl; [exact S4|]. intros p. by apply in_tile_frame.
  - intros r ex. rewrite H4. intros [? ->]%S5. unfold ncell. by rewrite F1, F3.
  - intros r ex. rewrite H5. intros [? ->]%S6. unfold ncell. by rewrite F2, F3.
Qed.
Lemma sound_new x y s b : 0 < s -> sound (new_tile x y s b).
Proof. intros Hs. split; try done; [exists []; apply new_tile_rep|constructor]. Qed.
Lemma sound_remove t c : sound t -> sound (t_remove_points t c).
Proof.
  intros [(ct & HR) S2 S3 S4 S5 S6]. destruct (remove_fields t c ct HR) as (_ & _ & H3 & H4 & _). pose proof (t_remove_frame t c) as Hf. pose proof Hf as (F1 & F2 & F3 & F4). split.
  - exists (drop_c ct c). by apply tile_rep_remove.
  - by eapply cache_ok_remove.
  - congruence.
  - rewrite (tr_data _ _ (tile_rep_remove t ct c HR)). apply drop_c_Forall. rewrite <- (tr_data _ _ HR). eapply Forall_impl; [exact S4|]. intros p. by apply in_tile_frame.
  - intros r ex. rewrite H3. intros [? ->]%S5. unfold ncell. by rewrite F1, F3.
  - intros r ex. rewrite H4. intros [? ->]%S6. unfold ncell. by rewrite F2, F3.
Qed.
Lemma add_edges t d c ct : tile_rep t ct -> t_edges_x (t_add_points t d c) = t_edges_x t /\ t_edges_y (t_add_points t d c) = t_edges_y t.
Proof.
  intros HR. unfold t_add_points. destruct (t_data t); [|done]. rewrite clear_temp_all_eq. destruct (dmem _ _); [|done].
  destruct (remove_fields t c ct HR) as (_ & _ & H3 & H4 & _). by split.
Qed.
Lemma sound_add t d c : sound t -> Forall (in_tile t) d -> sound (t_add_points t d c).
Proof.
  intros [(ct & HR) S2 S3 S4 S5 S6] Hd. destruct (add_edges t d c ct HR) as [H3 H4]. pose proof (t_add_frame t d c) as Hf. pose proof Hf as (F1 & F2 & F3 & F4). split.
  - exists (put_c ct c d). by apply tile_rep_add.
  - by eapply cache_ok_add.
  - congruence.
  - rewrite (tr_data _ _ (tile_rep_add t ct d c HR)). unfold put_c. rewrite all_points_app. apply Forall_app. split.
    + apply drop_c_Forall. rewrite <- (tr_data _ _ HR). eapply Forall_impl; [exact S4|]. intros p. by apply in_tile_frame.
    + unfold all_points. csimpl. rewrite app_nil_r. eapply Forall_impl; [done|]. intros p. by apply in_tile_frame.
  - intros r ex. rewrite H3. intros [? ->]%S5. unfold ncell. by rewrite F1, F3.
  - intros r ex. rewrite H4. intros [? ->]%S6. unfold ncell. by rewrite F2, F3.
Qed.
Lemma sound_reload m t : sound t -> sound (t_reload m t).
Proof. unfold t_reload. destruct (saves_grid m); [|done]. by apply sound_same. Qed.
Lemma sound_query e t layer ro nodata up t' o : t_get_layers_by_name e t layer ro nodata up = Ok (t', o) -> sound t -> sound t'.
Proof.
  intros H. destruct (t_query_keeps _ _ _ _ _ _ _ _ H) as (F & D & C). destruct (t_query_run _ _ _ _ _ _ _ _ H) as (_ & I & Ex & Ey). by apply sound_same.
Qed.

(** ** Gridding, whether or not it raises *)
Lemma new_grid_sound e t r alg t1 : new_grid e t r alg = Ok t1 -> sound t -> sound t1.
Proof.
  unfold new_grid. destruct (is_power_of_two (metres e r)) eqn:Hp; [|done]. cbn [negb]. pose proof (pow2_res_pos _ _ Hp) as Hr.
  intros (ex & Hex & H)%rbind_Ok. apply rbind_Ok in H as (ey & Hey & H). injection H as <-. intros [S1 S2 S3 S4 S5 S6].
  unfold t_max_x, t_max_y in *. destruct (tile_axis (t_min_x t) (t_size t) r S3 Hr) as [_ Hx2]. destruct (tile_axis (t_min_y t) (t_size t) r S3 Hr) as [_ Hy2].
  rewrite Hx2 in Hex. rewrite Hy2 in Hey. injection Hex as <-. injection Hey as <-.
  destruct S1 as (ct & S1). split; [exists ct; by eapply (rep_same t)|exact S2|exact S3|exact S4| |].
  - intros r' ex'. cbn -[dset dget tile_edges]. rewrite dget_dset. destruct (decide _) as [->|]; [intros [= <-]; by split|apply S5].
  - intros r' ex'. cbn -[dset dget tile_edges]. rewrite dget_dset. destruct (decide _) as [->|]; [intros [= <-]; by split|apply S6].
Qed.
Lemma fill_new_ok {A} (f : A -> Z) (d : list A) idx : Forall2 (fun p i => i = -1 \/ i = f p) d idx ->
  fill_new idx (map f (mask_select (map (fun i => i =? -1) idx) d)) = map f d.
Proof.
  induction 1 as [|p i d idx Hi _ IH]; [done|]. cbn [map mask_select fill_new]. destruct (i =? -1) eqn:E; cbn [map]; [by rewrite IH|].
  rewrite IH. destruct Hi as [->| ->]; [done|done].
Qed.
Lemma indices_sound (t : tile) r idx : sound t -> idx = map (cellno t r) (pts t) -> sound (t <| t_indices := dset (t_indices t) r idx |>).
Proof.
  intros [(ct & S1) S2 S3 S4 S5 S6] ->. split; [exists ct; by eapply (rep_same t)| |exact S3|exact S4|exact S5|exact S6].
  intros r' idx'. cbn -[dset dget]. rewrite dget_dset. destruct (decide _) as [->|]; [|by apply S2]. intros [= <-]. unfold pts at 1. cbn. fold (pts t).
  clear. induction (pts t); constructor; [by right|done].
Qed.
Lemma layers_sound (t : tile) r l : sound t -> sound (set_layers t r l).
Proof. by apply sound_same. Qed.
(** What the second half of prepare_grid stores as cell indices. *)
Lemma refill_ok (t : tile) r ex ey d idx idx' : sound t -> dget (t_edges_x t) r = Some ex -> dget (t_edges_y t) r = Some ey -> t_data t = Some d ->
  dget (t_indices t) r = Some idx ->
  (if existsb id (map (fun i => i =? -1) idx) then let* b := bin2d_with_indices (mask_select (map (fun i => i =? -1) idx) (map xy_of d)) ex ey in Ok (fill_new idx b) else Ok idx) = Ok idx' ->
  idx' = map (cellno t r) (pts t).
Proof.
  intros [_ S2 S3 S4 S5 S6] [Hr ->]%S5 [_ ->]%S6 Hd Hi H. unfold pts in *. rewrite Hd in *. cbn [default] in *. specialize (S2 r idx Hi). unfold pts in S2. rewrite Hd in S2. cbn [default] in S2.
  destruct (existsb _ _) eqn:E.
  - rewrite mask_select_map in H. rewrite bin2d_tile in H by (done || by apply Forall_mask_select). cbn [rbind] in H. injection H as <-. by apply fill_new_ok.
  - injection H as <-. clear - S2 E. induction S2 as [|p i d0 idx0 [->| ->] _ IH]; cbn in *; try done. apply orb_false_iff in E as [_ E]. f_equal. by apply IH.
Qed.
Lemma prepare_sound e t alg r gp t' : prepare_grid e t alg r gp = Ok t' -> sound t -> sound t'.
Proof.
  unfold prepare_grid. intros (t1 & H1 & H)%rbind_Ok HS.
  assert (K : sound t1).
  { destruct (_ || _); [|by injection H1 as <-]. eapply new_grid_sound; [exact H1|]. by eapply sound_same; [..|exact HS]. }
  clear HS H1. apply rbind_Ok in H as (ex & Hex & H). apply rbind_Ok in H as (ey & Hey & H). apply rbind_Ok in H as (d & Hd & H).
  destruct (dget (t_edges_x t1) r) as [ex'|] eqn:Ex; [|done]. injection Hex as ->. destruct (dget (t_edges_y t1) r) as [ey'|] eqn:Ey; [|done]. injection Hey as ->.
  destruct (t_data t1) as [d'|] eqn:Ed; [|done]. injection Hd as ->. destruct (dget (t_indices t1) r) as [idx|] eqn:Ei.
  - apply rbind_Ok in H as (i & Hi & H). apply rbind_Ok in H as (l' & _ & H). injection H as <-. apply layers_sound.
    apply indices_sound; [done|]. by eapply refill_ok.
  - apply rbind_Ok in H as (i & Hi & H). injection H as <-. apply indices_sound; [done|].
    destruct K as [_ _ S3 S4 S5 S6]. apply S5 in Ex as [Hr ->]. apply S6 in Ey as [_ ->]. unfold pts in *. rewrite Ed in *. cbn [default] in *.
    rewrite bin2d_tile in Hi by done. by injection Hi as <-.
Qed.
Lemma prepare_left_sound e t alg r gp : sound t -> sound (prepare_left e t alg r gp).
Proof.
  intros HS. unfold prepare_left. set (fresh := t <| t_algorithm := _ |> <| t_params := _ |>). assert (HF : sound fresh) by (by eapply sound_same; [..|exact HS]).
  destruct (if _ || _ then _ else _) as [t1|] eqn:E; [|done].
  assert (K : sound t1). { destruct (_ || _); [by eapply new_grid_sound|by injection E as <-]. }
  destruct (dget (t_edges_x t1) r) as [ex|] eqn:Ex; [|done]. destruct (dget (t_edges_y t1) r) as [ey|] eqn:Ey; [|done].
  destruct (t_data t1) as [d|] eqn:Ed; [|done]. destruct (dget (t_indices t1) r) as [idx|] eqn:Ei; [|done]. cbv zeta.
  destruct (if existsb _ _ then _ else _) as [idx'|] eqn:E2; [|done]. apply layers_sound, indices_sound; [done|]. by eapply refill_ok.
Qed.
Lemma run_fields e t alg r gp b t' : run_algorithm e t alg r gp b = Ok t' ->
  t_indices t' = t_indices t /\ t_edges_x t' = t_edges_x t /\ t_edges_y t' = t_edges_y t.
Proof.
  unfold run_algorithm. assert (HS : forall a, run_simple_grid e a t r = Ok t' -> t_indices t' = t_indices t /\ t_edges_x t' = t_edges_x t /\ t_edges_y t' = t_edges_y t).
  { intros a. unfold run_simple_grid. destruct (t_data t); [|done]. intros H. repeat (apply rbind_Ok in H as (? & _ & H)). by injection H as <-. }
  repeat case_bool_decide; [apply HS|apply HS| |by intros [= <-]].
  unfold run_cube_grid. destruct (t_data t); [|done]. destruct (negb _); [done|]. intros K. repeat (apply rbind_Ok in K as (? & _ & K)). by injection K as <-.
Qed.
Lemma clear_temp_sound t r : sound t -> sound (clear_temp_data t r).
Proof. intros HS. by eapply sound_same; [..|exact HS]. Qed.
Lemma clear_sound (clear : bool) t : sound t -> sound (if clear then clear_grid t else t).
Proof. destruct clear; [|done]. intros [(ct & S1) S2 S3 S4 S5 S6]. split; try done. exists ct; by eapply (rep_same t). Qed.
Lemma grid_sound e t alg ro clear mode gp border t' r : t_grid e t alg ro clear mode gp border = Ok (t', r) -> sound t -> sound t'.
Proof.
  intros Hg HS. unfold t_grid in Hg. apply rbind_Ok in Hg as (r' & _ & H). destruct (negb _); [done|].
  apply rbind_Ok in H as (t2 & H2 & H). apply rbind_Ok in H as (t3 & H3 & H). injection H as <- <-.
  assert (K2 : sound t2) by (eapply prepare_sound; [exact H2|]; by apply clear_temp_sound, clear_sound).
  destruct (run_fields _ _ _ _ _ _ _ H3) as (I1 & I2 & I3).
  assert (HK : tile_keeps t2 t3) by (unfold run_algorithm in H3; repeat case_bool_decide; [by eapply run_simple_keeps..|by eapply run_cube_keeps|by injection H3 as <-]).
  destruct HK as (F & D & C). by eapply sound_same; [..|exact K2].
Qed.
Lemma left_sound e t alg ro clear mode gp : sound t -> sound (t_grid_left e t alg ro clear mode gp).
Proof.
  intros HS. unfold t_grid_left. destruct (choose_resolution _ _ _ _) as [r|]; [|done]. destruct (negb _); [done|]. cbv zeta.
  assert (K : sound (clear_temp_data (if clear then clear_grid t else t) r)) by (by apply clear_temp_sound, clear_sound).
  destruct (prepare_grid _ _ _ _ _) eqn:E; [by eapply prepare_sound|by apply prepare_left_sound].
Qed.

(** With clear_existing nothing depends on the layers that were there. *)
Lemma grid_clear e t alg ro mode gp border : t_grid e t alg ro true mode gp border = t_grid e (clear_grid t) alg ro true mode gp border.
Proof. by destruct t. Qed.
Lemma sound_current e x y s b t sa ro mode gp border t' r : sound t -> at_square t x y s b ->
  t_grid e t (alg_name sa) ro true mode gp border = Ok (t', r) -> current e sa r t'.
Proof.
  rewrite grid_clear. intros HS HQ. apply (good_current e x y s b); [by apply sound_good| |by left].
  by destruct t.
Qed.
Lemma sound_total e t sa r mode gp border d : sound t -> t_data t = Some d -> is_power_of_two (metres e r) = true ->
  exists t', t_grid e t (alg_name sa) (Some r) true mode gp border = Ok (t', r).
Proof.
  intros HS Hd Hp. rewrite grid_clear.
  destruct (t_grid_ok e (clear_grid t) (alg_name sa) (Some r) r true mode gp border d (sound_good e t HS) eq_refl Hp) as (t' & l' & H & _); try done; [|by left| |by exists t'].
  - apply known_elem, alg_name_elem.
  - by destruct sa.
Qed.
