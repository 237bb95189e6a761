(** What holds of the tiles of a grid whose grid() calls returned normally. *)
From Verif Require Import Py Nd Numpy Point Bin Algorithms Tile Time Meta Disk Grid GridRun GridQuery GridOps Spec TileExec GridExec.
From Verif Require Import PyFacts NdFacts NumpyFacts BinFacts TileFacts TileGridFacts TileSpecFacts TileRunFacts TileHistFacts TilePropFacts TileQueryFacts.
From Verif Require Import GridBaseFacts GridPlaceFacts GridInvFacts GridRootFacts GridEvolveFacts GridSrFacts GridPropFacts GridHistFacts GridRunFacts.
Open Scope Z_scope.

(** ** Attributes that adding and removing points leave alone *)
Definition run_attrs (m : gmeta) := (m_rezs m, m_algorithm m, m_grez m, m_params m).
Section attrs.
  Context {T : Type} (O : tile_ops T).
  Definition same_attrs (g g' : grid T) : Prop := run_attrs (g_meta g') = run_attrs (g_meta g) /\ g_disk g' = g_disk g.
  Lemma same_attrs_trans a b c : same_attrs a b -> same_attrs b c -> same_attrs a c.
  Proof. intros [A1 A2] [B1 B2]. split; congruence. Qed.
  Lemma update_metadata_attrs m a : run_attrs (update_metadata m a).1 = run_attrs m.
  Proof. unfold update_metadata. repeat case_match; done. Qed.
  Lemma build_grid_attrs (g : grid T) x : same_attrs g (build_grid g x).1.
  Proof. unfold build_grid. repeat case_match; done. Qed.
  Lemma base_grid_attrs (g : grid T) d : same_attrs g (update_base_grid g d).1.
  Proof. unfold update_base_grid. repeat case_match; try done; apply build_grid_attrs. Qed.
  Lemma place_tiles_attrs (g : grid T) : same_attrs g (place_tiles g).1.
  Proof. unfold place_tiles. repeat case_match; done. Qed.
  Lemma add_to_tiles_attrs (g : grid T) d a : same_attrs g (st_of (add_points_to_tiles O g d a)).
  Proof. unfold add_points_to_tiles. repeat case_match; done. Qed.
  Lemma add_attrs (g : grid T) inp a : same_attrs g (st_of (g_add_points O g inp a)).
  Proof.
    unfold g_add_points. destruct (dmem _ _); [done|]. destruct inp as [d|]; [|done].
    pose proof (update_metadata_attrs (g_meta g) a) as H1. destruct (update_metadata (g_meta g) a) as [m1 [x|]]; cbn [fst] in H1; [by split|].
    assert (A1 : same_attrs g (g <| g_meta := m1 |>)) by (by split).
    pose proof (base_grid_attrs (g <| g_meta := m1 |>) d) as H2. destruct (update_base_grid _ d) as [g2 [x|]]; cbn [fst] in H2; [by eapply same_attrs_trans|].
    pose proof (place_tiles_attrs g2) as H3. destruct (place_tiles g2) as [g3 [x|]]; cbn [fst] in H3; [by do 2 (eapply same_attrs_trans; [eassumption|])|].
    cbv zeta. pose proof (add_to_tiles_attrs g3 d a) as H4.
    assert (A4 : same_attrs g (st_of (add_points_to_tiles O g3 d a))) by (do 3 (eapply same_attrs_trans; [eassumption|]); done).
    destruct (exn_of _); [exact A4|]. exact A4.
  Qed.
  Lemma set_tile_attrs (g : grid T) k t : same_attrs g (set_tile g k t).
  Proof. split; [by rewrite set_tile_meta|by rewrite set_tile_disk]. Qed.
  Lemma remove_attrs (g : grid T) c : same_attrs g (st_of (g_remove_points O g c)).
  Proof.
    unfold g_remove_points. destruct (negb _); [done|]. cbv zeta. set (g1 := g <| g_meta := _ |>).
    assert (A1 : same_attrs g g1) by done.
    assert (Hstep : forall h k, same_attrs h (st_of (remove_from_tile O c h k))).
    { intros h k. unfold remove_from_tile.
      assert (Hsave : forall h, same_attrs h (st_of (save_reload O h k SavePoints))).
      { intros h'. unfold save_reload. repeat case_match; try done. cbn [st_of]. apply set_tile_attrs. }
      set (r1 := match tile_at h k with None => _ | Some t => _ end).
      assert (H1 : same_attrs h (st_of r1)).
      { unfold r1. destruct (tile_at h k) as [t|]; [|done]. destruct (exn_of _); [apply set_tile_attrs|].
        destruct (op_empty O _); [|apply set_tile_attrs].
        eapply same_attrs_trans; [apply (set_tile_attrs h k (Some (st_of (op_remove O t c))))|].
        set (h1 := set_tile h k (Some (st_of (op_remove O t c)))).
        assert (Hrm : same_attrs h1 (remove_tile h1 k).1).
        { unfold remove_tile. cbv zeta. destruct (match g_mask h1 with Some b => _ | None => _ end) as [b|x]; [|done].
          destruct (m_ntiles (g_meta h1)); cbn [fst]; [|done]. eapply same_attrs_trans; [|apply set_tile_attrs]. done. }
        by destruct (remove_tile h1 k) as [g2 e2]. }
      destruct (exn_of r1); [done|]. eapply same_attrs_trans; [exact H1|apply Hsave]. }
    assert (Hl : forall l h, same_attrs h (st_of (oloop (remove_from_tile O c) l h))).
    { induction l as [|k l IH]; intros h; [done|]. cbn [oloop]. pose proof (Hstep h k) as H1.
      destruct (exn_of (remove_from_tile O c h k)); [done|]. eapply same_attrs_trans; [exact H1|apply IH]. }
    set (r := if g_is_empty g1 then _ else _).
    assert (Hr : same_attrs g (st_of r)).
    { unfold r. destruct (g_is_empty g1); [done|]. eapply same_attrs_trans; [exact A1|apply Hl]. }
    destruct (exn_of r); [done|]. cbn [st_of]. by destruct (g_is_empty (st_of r)).
  Qed.

  Lemma evolve_strengthen (R R' : T -> T -> Prop) (g g' : grid T) :
    evolve R g g' -> (forall k t t', tile_at g k = Some t -> tile_at g' k = Some t' -> R' t t') -> evolve R' g g'.
  Proof.
    intros [E1 E2 E3 E4 E5] H. split; try done. unfold tile_at in H.
    destruct (g_tiles g) as [x|], (g_tiles g') as [y|]; cbn in *; try done. destruct E5 as (F1 & F2 & F3).
    split; [done|]. split; [done|]. apply Forall2_same_length_lookup. split; [by eapply Forall2_length|].
    intros i o o' Ho Ho'. pose proof (Forall2_lookup_lr _ _ _ _ _ _ F3 Ho Ho') as Hr. specialize (H i).
    rewrite Ho, Ho' in H. destruct o as [t|], o' as [t'|]; cbn in *; try done. by apply H.
  Qed.
End attrs.

(** ** Tiles whose calls of grid() satisfy [Q algorithm resolution] *)
Inductive tile_steps (e : env) (Q : string -> Z -> Prop) (x y s : Z) (b : bool) : tile -> content -> bool -> Prop :=
  | TS_new : tile_steps e Q x y s b (new_tile x y s b) [] false
  | TS_add t ct f d c :
      tile_steps e Q x y s b t ct f -> Forall (fun p => in_square x y s (px p) (py p)) d ->
      tile_steps e Q x y s b (t_add_points t d c) (put_c ct c d) true
  | TS_remove t ct f c :
      tile_steps e Q x y s b t ct f ->
      tile_steps e Q x y s b (t_remove_points t c) (drop_c ct c) (f || bool_decide (c ∈ ct.*1))
  | TS_grid t ct f alg ro clear mode gp border t' r :
      tile_steps e Q x y s b t ct f -> alg ∈ ["mean"; "shoalest"; "cube"] -> Q alg r ->
      (clear = true \/ same_kind (t_algorithm t) alg) ->
      t_grid e t alg ro clear mode gp border = Ok (t', r) -> tile_steps e Q x y s b t' ct false
  | TS_query t ct f layer ro nodata up t' o :
      tile_steps e Q x y s b t ct f ->
      t_get_layers_by_name e t layer ro nodata up = Ok (t', o) -> tile_steps e Q x y s b t' ct f
  | TS_reload t ct f m : tile_steps e Q x y s b t ct f -> tile_steps e Q x y s b (t_reload m t) ct f.

Lemma steps_history e Q x y s b t ct f : tile_steps e Q x y s b t ct f -> tile_history e x y s b t ct f.
Proof.
  induction 1; [by apply TH_new|by eapply TH_add|by apply TH_remove|by eapply TH_grid|by eapply TH_query|by apply TH_reload].
Qed.
Lemma steps_reach e Q x y s b t ct f : tile_steps e Q x y s b t ct f -> tile_reach true e x y s b t.
Proof. intros H. eapply history_reach. by eapply steps_history. Qed.
Lemma remove_alg t c : t_algorithm (t_remove_points t c) = t_algorithm t.
Proof.
  unfold t_remove_points. destruct (dget _ _) as [[]|]; [|done]. destruct (t_data t); [|done]. cbv zeta. by rewrite clear_temp_all_eq.
Qed.
Lemma add_alg t d c ct : tile_rep t ct -> t_algorithm (t_add_points t d c) = t_algorithm t.
Proof.
  intros HR. destruct (add_fields t d c ct HR) as ((t1 & [->| ->] & _ & -> & _) & _); [done|]. apply remove_alg.
Qed.

Section steps.
  Context (e : env) (Q : string -> Z -> Prop) (size : Z) (b : bool) (Hsize : 0 < size).
  Definition alg_is (t : tile) (alg : string) : Prop := forall a0, t_algorithm t = Some a0 -> a0 = alg /\ known_alg a0.
  Definition steps_rep (alg : string) (t : tile) (x y : Z) (ct : content) : Prop :=
    sr_rep size b t x y ct /\ (exists f, tile_steps e Q x y size b t ct f) /\ alg_is t alg.

  Lemma steps_laws m0 alg : m_tile_size m0 = size -> m_backscatter m0 = b -> tile_laws sr_ops m0 (steps_rep alg).
  Proof.
    intros E1 E2. pose proof (sr_laws m0) as L. rewrite E1, E2 in L. split.
    - intros m disk x y F. split; [by apply (tl_build _ _ _ L)|]. cbn. rewrite (mf_size _ _ F), (mf_back _ _ F), E1, E2.
      split; [|done]. exists false. apply TS_new.
    - intros t x y ct d a (H1 & (f & H2) & H3) Hd Hin Hc Hn. destruct (tl_add _ _ _ L t x y ct d a H1 Hd Hin Hc Hn) as [L1 L2].
      split; [done|]. split; [done|]. cbn. split.
      + exists true. rewrite <- put_c_fresh by done. rewrite E1 in Hin. by eapply TS_add.
      + unfold alg_is. rewrite (add_alg _ _ _ ct); [done|apply H1].
    - intros t x y ct c (H1 & (f & H2) & H3). destruct (tl_remove _ _ _ L t x y ct c H1) as [L1 L2].
      split; [done|]. split; [done|]. cbn. split.
      + eexists. by apply TS_remove.
      + unfold alg_is. by rewrite remove_alg.
    - intros t x y ct (H1 & _). by apply (tl_empty _ _ _ L t x y).
    - intros t x y ct (H1 & _). by apply (tl_count _ _ _ L t x y).
    - intros md t x y ct (H1 & (f & H2) & H3). split; [by apply (tl_reload _ _ _ L)|]. split.
      + exists f. by apply TS_reload.
      + unfold alg_is. cbn. by destruct (reload_fields md t) as (_ & _ & _ & _ & ->).
  Qed.

  Definition carry {T} (rep rep' : T -> Z -> Z -> content -> Prop) (t t' : T) : Prop :=
    forall x y ct, rep t x y ct -> rep' t' x y ct.

  Lemma steps_query alg t l r n u t' o :
    op_get_layer sr_ops e t l r n u = Ok (t', o) -> carry (steps_rep alg) (steps_rep alg) t t'.
  Proof using Hsize.
    cbn. intros Hq x y ct (H1 & (f & H2) & H3). split; [eapply sr_rep_keeps; [by eapply t_query_keeps|done]|].
    split; [exists f; by eapply TS_query|]. unfold alg_is.
    destruct (reach_good _ _ _ _ _ _ _ Hsize (steps_reach _ _ _ _ _ _ _ _ _ H2)) as (HG & _).
    by destruct (good_query _ _ _ _ _ _ _ _ HG Hq) as (_ & _ & _ & _ & _ & ->).
  Qed.
  Lemma steps_reload alg m t : carry (steps_rep alg) (steps_rep alg) t (t_reload m t).
  Proof.
    intros x y ct (H1 & (f & H2) & H3). split; [eapply sr_rep_keeps; [apply sr_reload_keeps|done]|]. split; [exists f; by apply TS_reload|].
    unfold alg_is. by destruct (reload_fields m t) as (_ & _ & _ & _ & ->).
  Qed.
  Lemma t_strip_keeps t t' s q : tile_keeps t t' -> t_strip t' s q = t_strip t s q.
  Proof. intros ((F1 & F2 & F3 & F4) & D & _). unfold t_strip, t_max_x, t_max_y. by rewrite D, F1, F2, F3. Qed.

  (** A single tile gridded with algorithm [alg]. *)
  Lemma steps_grid alg0 alg ro clear mode gp border t t' r x y ct :
    steps_rep alg0 t x y ct -> known_alg alg -> Q alg r -> (clear = false -> alg0 = "" \/ alg0 = alg) ->
    t_grid e t alg ro clear mode gp border = Ok (t', r) -> steps_rep alg t' x y ct.
  Proof using Hsize.
    intros (H1 & (f & H2) & H3) HA HQ HC Hg.
    assert (HK : clear = true \/ same_kind (t_algorithm t) alg).
    { destruct clear; [by left|right]. unfold same_kind. destruct (t_algorithm t) as [a0|] eqn:E; [|done].
      destruct (H3 a0 E) as [-> Hk]. destruct (HC eq_refl) as [-> | ->]; [|done]. by destruct Hk as [|[|]]. }
    split; [eapply sr_rep_keeps; [by eapply t_grid_keeps|done]|].
    split; [exists false; eapply TS_grid; [exact H2|by apply known_elem|done|done|done]|].
    destruct (reach_grid _ _ _ _ _ _ _ _ _ _ _ _ _ _ _ Hsize (steps_reach _ _ _ _ _ _ _ _ _ H2) (proj2 (known_elem _) HA) HK Hg)
      as (_ & _ & _ & _ & _ & _ & l & HT).
    intros a0. rewrite (gt_alg _ _ _ _ _ _ _ _ _ HT). intros [= <-]. done.
  Qed.

  Definition sr_finished := grid_finished sr_ops e tile_keeps tile_keeps_refl tile_keeps_trans (sr_grid_keeps e) sr_reload_keeps t_strip_keeps.

  (** What one call of grid() that returned normally does to the tile at [k]. *)
  Lemma sr_done_tile g a dask : origins sr_ops g -> exn_of (g_grid sr_ops e g a dask) = None ->
    let g' := st_of (g_grid sr_ops e g a dask) in
    exists rez, call_rez sr_ops e g a = Ok rez /\
    forall k t, tile_at g k = Some t -> exists t', tile_at g' k = Some t' /\
      let ro := tile_rez sr_ops (g_meta g) (grid_auto a) rez in
      if skip_tile sr_ops a (clear_at sr_ops a (ga_clear a) (tile_list g) k) t
      then t' = t /\ (forall r, r ∈ t_resolutions t -> r ∈ m_rezs (g_meta g'))
      else exists b t1 r, borders sr_ops g a dask rez k t = Ok b /\ r ∈ m_rezs (g_meta g') /\
        t_grid e t (ga_alg a) ro (next_clear sr_ops a (ga_clear a)) (grid_auto a) (ga_params a) b = Ok (t1, r) /\
        t' = (if g_disk g then t_reload SaveGrid t1 else t1).
  Proof.
    intros Ho Hx g'. destruct (sr_finished g a dask Ho Hx) as [D1 D2 D3 D4 D5 (rez & Hrez & D6 & _) _ _].
    exists rez. split; [done|]. intros k t Ht. destruct (D6 k t Ht) as (t' & rz & Ht' & Hen & Hin). exists t'. split; [done|].
    cbv zeta. unfold entry_result, entry_at in Hen. cbn [en_k en_t en_run Nat.add] in Hen.
    destruct (skip_tile _ _ _ t); [injection Hen as <- <-; done|].
    apply rbind_Ok in Hen as (ga & Hb & Hen). apply rbind_Ok in Hb as (bd & Hb & Hga). injection Hga as <-.
    cbn [sr_ops op_grid call_args ga_alg ga_rez ga_clear ga_mode ga_params ga_border] in Hen.
    destruct (t_grid _ _ _ _ _ _ _ _) as [[t1 r]|] eqn:Hg in Hen; [|done]. cbn [exn_of st_of op_sr op_reload] in Hen.
    injection Hen as <- <-. exists bd, t1, r. rewrite andb_true_r. split; [done|]. split; [by apply Hin; left|]. done.
  Qed.

  Lemma steps_evolve g a dask : origins sr_ops g -> exn_of (g_grid sr_ops e g a dask) = None -> known_args a ->
    (forall rez t r, call_rez sr_ops e g a = Ok rez ->
       choose_resolution e t (tile_rez sr_ops (g_meta g) (grid_auto a) rez) (grid_auto a) = Ok r -> Q (ga_alg a) r) ->
    let g' := st_of (g_grid sr_ops e g a dask) in
    evolve (carry (steps_rep (m_algorithm (g_meta g))) (steps_rep (ga_alg a))) g g' /\ m_algorithm (g_meta g') = ga_alg a.
  Proof using Hsize.
    intros Ho Hx HA HQ g'. pose proof (sr_finished g a dask Ho Hx) as D. split.
    2:{ destruct (gd_meta _ _ _ _ _ _ D) as (rz & Hm & _). unfold g'. by rewrite Hm. }
    apply (evolve_strengthen tile_keeps).
    { apply evolve_grid; [apply tile_keeps_refl|apply tile_keeps_trans|apply sr_grid_keeps|apply sr_reload_keeps]. }
    assert (HC : ga_clear a = false -> m_algorithm (g_meta g) = "" \/ m_algorithm (g_meta g) = ga_alg a).
    { intros Hc. pose proof (gd_match _ _ _ _ _ _ D) as HM. unfold mismatch in HM. rewrite Hc, andb_true_r in HM.
      apply andb_false_iff in HM as [HM|HM]; apply negb_false_iff, bool_decide_eq_true in HM; auto. }
    intros k t t' Ht Ht' x y ct HR. apply known_elem in HA.
    destruct (sr_done_tile g a dask Ho Hx) as (rez & Hrez & HT). destruct (HT k t Ht) as (t2 & Ht2 & H).
    unfold g' in Ht'. rewrite Ht2 in Ht'. injection Ht' as <-. cbv zeta in H. destruct (skip_tile _ _ _ t) eqn:Hs.
    - destruct H as [-> _]. destruct HR as (R1 & R2 & R3). split; [done|]. split; [done|]. intros a0 H0. destruct (R3 a0 H0) as [-> Hk].
      split; [|done]. unfold skip_tile in Hs. apply andb_true_iff in Hs as [Hs _]. apply andb_true_iff in Hs as [_ Hs].
      apply negb_true_iff in Hs. unfold clear_at in Hs. apply orb_false_iff in Hs as [Hs _].
      destruct (HC Hs) as [E|E]; [|done]. rewrite E in Hk. by destruct Hk as [|[|]].
    - destruct H as (bd & t1 & r & Hb & Hr & Hg & ->).
      assert (HS : steps_rep (ga_alg a) t1 x y ct).
      { eapply steps_grid; [exact HR|exact HA| |clear Hg|exact Hg].
        - eapply HQ; [exact Hrez|]. by destruct (t_grid_inv _ _ _ _ _ _ _ _ _ _ HA Hg) as (Hch & _).
        - intros Hc. apply HC. unfold next_clear in Hc. by destruct (_ && _). }
      destruct (g_disk g); [|done]. by apply steps_reload.
  Qed.
End steps.

(** ** Layer queries leave the attributes alone *)
Lemma get_tile_data_meta {T} (O : tile_ops T) e g k r layers nodata up gt :
  get_tile_data O e g k r layers nodata up = Ok gt -> g_meta gt.1 = g_meta g.
Proof.
  unfold get_tile_data. destruct (option_map ncols (g_tiles g)) as [cols|]; [|done]. cbn [rofopt rbind].
  destruct (exact_div _ _) as [n|]; [|done]. cbn [rbind]. destruct (tile_at g k) as [t|] eqn:Ht; [|done]. cbn [rofopt rbind].
  destruct (read_layers O e t layers r nodata _) as [td|] eqn:E; [|done]. cbn [rbind]. intros [= <-]. cbn. apply set_tile_meta.
Qed.
Lemma query_meta {T} (O : tile_ops T) e g layers rez nodata up g' o :
  g_get_layers_by_name O e g layers rez nodata up = Ok (g', o) -> g_meta g' = g_meta g.
Proof.
  unfold g_get_layers_by_name. destruct (g_no_grid O g) as [[]|]; [done| |done]. cbn [rbind].
  destruct (pick_rez g rez) as [r|]; [|done]. cbn [rbind]. destruct (rmap _ layers) as [data|]; [|done]. cbn [rbind].
  assert (H : forall l acc, (forall s, acc = Ok s -> g_meta s.1.1 = g_meta g) ->
    forall s, foldl (layer_step O e r layers nodata up) acc l = Ok s -> g_meta s.1.1 = g_meta g).
  { induction l as [|k l IH]; intros acc Hacc s Hs; [by apply Hacc|]. cbn [foldl] in Hs. eapply IH; [|exact Hs].
    intros s' Hs'. unfold layer_step in Hs'. destruct acc as [[[g0 d0] f0]|]; [|done]. cbn [rbind] in Hs'.
    destruct (tile_at g0 k) as [t|]; [|injection Hs' as <-; by apply (Hacc (g0, d0, f0))].
    destruct (get_tile_data O e g0 k r layers nodata up) as [gt|] eqn:E; [|done]. cbn [rbind] in Hs'.
    destruct (blit_all _ _ _ _ _) as [d'|]; [|done]. cbn [rbind] in Hs'. injection Hs' as <-. cbn.
    rewrite (get_tile_data_meta _ _ _ _ _ _ _ _ _ E). by apply (Hacc (g0, d0, f0)). }
  destruct (foldl _ _ _) as [s|] eqn:E; [|done]. cbn [rbind]. intros [= <- _].
  eapply H; [|exact E]. by intros s0 [= <-].
Qed.

(** ** Origins *)
Section origin.
  Context {T : Type} (O : tile_ops T) (m0 : gmeta) (rep : T -> Z -> Z -> content -> Prop).
  Lemma placed_origins g ct lx ly nx ny a : placed m0 rep g ct lx ly nx ny a -> origins O g.
  Proof.
    intros [P1 P2 P3 P4 P5 P6 [P7 _] P8] _ k. unfold tiles_size. rewrite P4, P7. intros Hk.
    rewrite (std_origin m0 _ _ _ _ _ _ P3 Hk). by eexists.
  Qed.
  Lemma root_origins g ct seen ok : root_inv m0 rep g ct seen ok -> origins O g.
  Proof.
    intros [_ [(H1 & _)|(_ & lx & ly & nx & ny & a & P & _)]]; [|by eapply placed_origins].
    intros _ k. unfold tiles_size. rewrite H1. lia.
  Qed.
  Lemma child_origins X Y W g ct : child_inv m0 rep X Y W g ct -> origins O g.
  Proof.
    intros [_ [(H1 & _)|(_ & a & P & _)]]; [|by eapply placed_origins].
    intros _ k. unfold tiles_size. rewrite H1. lia.
  Qed.
End origin.

(** ** Arguments *)
Definition allows (Q : string -> Z -> Prop) (a : gargs) : Prop :=
  known_args a /\ match ga_rez a with Some r => Q (ga_alg a) r | None => forall r, Q (ga_alg a) r end.
Lemma allows_chosen {T} (O : tile_ops T) e Q (g : grid T) a : allows Q a -> forall rez t r, call_rez O e g a = Ok rez ->
  choose_resolution e t (tile_rez O (g_meta g) (grid_auto a) rez) (grid_auto a) = Ok r -> Q (ga_alg a) r.
Proof.
  intros [_ H] rez t r. unfold call_rez, grid_auto, tile_rez. destruct (ga_rez a) as [r0|]; [|by intros].
  intros [= <-]. rewrite (bool_decide_eq_true_2 (""%string = ""%string)) by done. rewrite !andb_false_r. cbn. by intros [= <-].
Qed.
Lemma allows_nested {T} (O : tile_ops T) e Q (g : grid T) a rez m c b : allows Q a -> call_rez O e g a = Ok rez ->
  allows Q (call_args O a (grid_auto a) rez m c b).
Proof.
  intros [H1 H]. unfold call_rez, grid_auto. intros H0. split; [exact H1|]. revert H0. unfold call_args, tile_rez. cbn [ga_rez ga_alg].
  destruct (ga_rez a) as [r0|].
  - intros [= <-]. rewrite (bool_decide_eq_true_2 (""%string = ""%string)) by done. rewrite !andb_false_r. done.
  - intros _. repeat case_match; done.
Qed.

(** ** Single resolution grids *)
Section sr.
  Context (e : env) (Q : string -> Z -> Prop) (P : gargs -> Prop) (size : Z) (b zarr disk : bool) (Hsize : 0 < size).
  Context (HP : forall a, P a -> allows Q a).
  Notation m0 := (new_sr_meta 0 0 size b zarr).
  Notation rep := (steps_rep e Q size b).

  Lemma sr_clean_inv g ct : sr_clean e P size b zarr disk g ct ->
    g_disk g = disk /\ exists seen ok, root_inv m0 (rep (m_algorithm (g_meta g))) g ct seen ok.
  Proof using Hsize HP.
    assert (L : forall alg, tile_laws sr_ops m0 (rep alg)) by (intros; by apply steps_laws).
    induction 1 as [|g ct d a H IH Hx|g ct inp a H IH Hx|g ct c H IH Hx|g ct a dask H IH Ha Hx|g ct layers rez nodata up g' o H IH Hq];
      [split; [done|]; exists [], true; by apply root_new|destruct IH as [ID (seen & ok & IH)]..].
    - pose proof (add_attrs sr_ops g (GoodData d) a) as [A1 A2]. split; [congruence|]. injection A1 as _ A1 _ _. rewrite A1.
      destruct (root_add sr_ops m0 _ (L _) Hsize eq_refl eq_refl eq_refl g ct seen ok (GoodData d) a IH) as [(H1 & _)|(d' & m1 & [= <-] & _ & _ & _ & _ & H2 & _)]; [done|]. eauto.
    - pose proof (add_attrs sr_ops g inp a) as [A1 A2]. split; [congruence|]. injection A1 as _ A1 _ _. rewrite A1.
      destruct (root_add sr_ops m0 _ (L _) Hsize eq_refl eq_refl eq_refl g ct seen ok inp a IH) as [(H1 & H2 & _)|(d' & m1 & _ & _ & _ & _ & H1 & _)]; [eauto|done].
    - pose proof (remove_attrs sr_ops g c) as [A1 A2]. split; [congruence|]. injection A1 as _ A1 _ _. rewrite A1.
      destruct (root_remove sr_ops m0 _ (L _) Hsize g ct seen ok c IH) as [_ H2]. destruct (H2 Hx) as [H3 _]. eauto.
    - destruct (steps_evolve e Q size b Hsize g a dask (root_origins _ _ _ _ _ _ _ IH) Hx (proj1 (HP _ Ha)) (allows_chosen _ _ _ _ _ (HP _ Ha))) as [E ->].
      split; [by rewrite (ev_disk _ _ _ E)|]. exists seen, ok. eapply root_evolve; [|exact E|exact IH]. intros t t' x y c0 Hc Hr. by apply Hc.
    - rewrite (query_meta _ _ _ _ _ _ _ _ _ Hq).
      assert (E : evolve (carry (rep (m_algorithm (g_meta g))) (rep (m_algorithm (g_meta g)))) g g').
      { eapply evolve_query; [| | |exact Hq]; [by intros ? ? ?|intros t1 t2 t3 H1 H2 x y c0 H3; by apply H2, H1|].
        intros. by eapply steps_query. }
      split; [by rewrite (ev_disk _ _ _ E)|]. exists seen, ok. eapply root_evolve; [|exact E|exact IH]. intros t t' x y c0 Hc Hr. by apply Hc.
  Qed.
End sr.

(** ** Variable resolution grids *)
Section vr.
  Context (e : env) (Q : string -> Z -> Prop) (P : gargs -> Prop) (size sub : Z) (b zarr disk : bool) (Hsize : 0 < size) (Hsub : 0 < sub).
  Context (HP : forall a, P a -> allows Q a).
  Notation m0 := (new_vr_meta 0 0 size sub b zarr).
  Notation srep := (steps_rep e Q sub false).
  Notation sub0 := (sub0 size sub b zarr).
  Definition sub_alg_is (sg : grid tile) (alg : string) : Prop :=
    m_algorithm (g_meta sg) = "" \/ m_algorithm (g_meta sg) = alg /\ known_alg alg.
  Definition sub_rep (alg : string) (sg : grid tile) (x y : Z) (ct : content) : Prop :=
    child_inv (sub0 x y) (srep (m_algorithm (g_meta sg))) x y size sg ct /\ sub_alg_is sg alg.

  Lemma same_attrs_alg {T} (g g' : grid T) : same_attrs g g' -> m_algorithm (g_meta g') = m_algorithm (g_meta g).
  Proof. by intros [[=] _]. Qed.

  Lemma srep_laws alg x y : tile_laws sr_ops (sub0 x y) (srep alg).
  Proof using Hsize Hsub. by apply steps_laws. Qed.

  Lemma sub_laws alg : tile_laws vr_ops m0 (sub_rep alg).
  Proof using Hsize Hsub.
    split.
    - intros m d x y F. cbn. rewrite (sub_meta_frame _ _ _ _ _ _ _ F). split; [by apply child_new|]. by left.
    - intros g x y ct d a [H HA] Hd Hin Hf Hn. cbn. unfold sub_rep, sub_alg_is.
      rewrite (same_attrs_alg _ _ (add_attrs sr_ops g (GoodData d) a)).
      destruct (child_add sr_ops (sub0 x y) _ (srep_laws (m_algorithm (g_meta g)) x y) Hsub eq_refl x y size Hsize eq_refl g ct d a) as (H1 & H2 & _); done.
    - intros g x y ct c [H HA]. cbn. unfold sub_rep, sub_alg_is. rewrite (same_attrs_alg _ _ (remove_attrs sr_ops g c)).
      destruct (child_remove sr_ops (sub0 x y) _ (srep_laws (m_algorithm (g_meta g)) x y) Hsub x y size g ct c); done.
    - intros g x y ct [[B [(H1 & -> & _)|(H1 & a & H2 & _)]] _]; cbn.
      + unfold g_is_empty. by rewrite H1.
      + destruct H2 as [P1 P2 P3 P4 P5 P6 P7 P8].
        rewrite (slots_is_empty (sub0 x y) _ Hsub g ct _ _ _ _ a P4 P7 P8); [|apply B].
        apply bool_decide_ext. symmetry. apply all_points_nil_iff. apply B.
    - intros g x y ct [[B [(H1 & -> & _)|(H1 & a & H2 & _)]] _]; cbn.
      + unfold g_points_count, live_tiles. by rewrite H1.
      + destruct H2 as [P1 P2 P3 P4 P5 P6 P7 P8].
        exact (slots_count sr_ops (sub0 x y) _ (srep_laws _ x y) Hsub g a _ _ _ _ ct P4 P7 P8).
    - done.
  Qed.

  Lemma g_strip_keeps sg sg' s q : sub_keeps sg sg' -> op_strip vr_ops sg' s q = op_strip vr_ops sg s q.
  Proof.
    intros [_ _ _ _ H]. cbn. unfold g_strip. destruct (g_tiles sg) as [x|], (g_tiles sg') as [y|]; cbn in H; try done.
    destruct H as (_ & _ & HF). f_equal. induction HF as [|o o' l l' Ho _ IH]; [done|]. cbn [rmap].
    rewrite IH. destruct o as [t|], o' as [t'|]; cbn in Ho |- *; try done. by rewrite (t_strip_keeps t t').
  Qed.
  Lemma vr_reload_keeps m sg : sub_keeps sg (op_reload vr_ops m sg).
  Proof. apply sub_keeps_refl. Qed.
  Definition vr_finished := grid_finished vr_ops e sub_keeps sub_keeps_refl sub_keeps_trans (vr_grid_keeps e) vr_reload_keeps g_strip_keeps.

  Lemma vr_origins (g : vr_grid) : origins vr_ops g.
  Proof. unfold origins. cbn. by rewrite andb_false_r. Qed.

  (** What one call of grid() that returned normally does to the sub-grid at [k]. *)
  Lemma vr_done_tile g a dask : exn_of (g_grid vr_ops e g a dask) = None ->
    let g' := st_of (g_grid vr_ops e g a dask) in
    exists rez, call_rez vr_ops e g a = Ok rez /\
    forall k t, tile_at g k = Some t -> exists t', tile_at g' k = Some t' /\
      if skip_tile vr_ops a (ga_clear a) t then t' = t /\ (forall r, r ∈ m_rezs (g_meta t) -> r ∈ m_rezs (g_meta g'))
      else exists bd, borders vr_ops g a dask rez k t = Ok bd /\
        let a' := call_args vr_ops a (grid_auto a) rez (g_meta g) (ga_clear a) bd in
        exn_of (g_grid sr_ops e t a' None) = None /\ t' = st_of (g_grid sr_ops e t a' None) /\
        (forall r, r ∈ m_rezs (g_meta t') -> r ∈ m_rezs (g_meta g')).
  Proof.
    intros Hx g'. destruct (vr_finished g a dask (vr_origins g) Hx) as [D1 D2 D3 D4 D5 (rez & Hrez & D6 & _) _ _].
    exists rez. split; [done|]. intros k t Ht. destruct (D6 k t Ht) as (t' & rz & Ht' & Hen & Hin). exists t'. split; [done|].
    unfold entry_result, entry_at in Hen. cbn [en_k en_t en_run Nat.add] in Hen.
    assert (Hcl : clear_at vr_ops a (ga_clear a) (tile_list g) k = ga_clear a).
    { unfold clear_at. cbn [vr_ops grid_ops op_sr]. by rewrite andb_false_r, orb_false_r. }
    rewrite Hcl in Hen. destruct (skip_tile _ _ _ t); [injection Hen as <- <-; done|].
    apply rbind_Ok in Hen as (ga & Hb & Hen). apply rbind_Ok in Hb as (bd & Hb & Hga). injection Hga as <-. exists bd. split; [done|].
    assert (Hn : next_clear vr_ops a (ga_clear a) = ga_clear a) by (unfold next_clear; cbn; by rewrite andb_false_r).
    rewrite Hn in Hen. cbv zeta. set (a' := call_args _ _ _ _ _ _ _) in *. cbn [vr_ops grid_ops op_grid op_sr] in Hen. rewrite andb_false_r in Hen.
    destruct (exn_of (g_grid sr_ops e t a' None)); [done|]. injection Hen as <- <-. done.
  Qed.

  Lemma sub_evolve g a dask : exn_of (g_grid vr_ops e g a dask) = None -> allows Q a ->
    let g' := st_of (g_grid vr_ops e g a dask) in
    evolve (carry (sub_rep (m_algorithm (g_meta g))) (sub_rep (ga_alg a))) g g' /\ m_algorithm (g_meta g') = ga_alg a.
  Proof using Hsize Hsub.
    intros Hx HA g'. pose proof (vr_finished g a dask (vr_origins g) Hx) as D. split.
    2:{ destruct (gd_meta _ _ _ _ _ _ D) as (rz & Hm & _). unfold g'. by rewrite Hm. }
    apply (evolve_strengthen sub_keeps).
    { apply evolve_grid; [apply sub_keeps_refl|apply sub_keeps_trans|apply vr_grid_keeps|apply vr_reload_keeps]. }
    assert (HC : ga_clear a = false -> m_algorithm (g_meta g) = "" \/ m_algorithm (g_meta g) = ga_alg a).
    { intros Hc. pose proof (gd_match _ _ _ _ _ _ D) as HM. unfold mismatch in HM. rewrite Hc, andb_true_r in HM.
      apply andb_false_iff in HM as [HM|HM]; apply negb_false_iff, bool_decide_eq_true in HM; auto. }
    intros k t t' Ht Ht' x y ct [HR HS].
    destruct (vr_done_tile g a dask Hx) as (rez & Hrez & HT). destruct (HT k t Ht) as (t2 & Ht2 & H).
    unfold g' in Ht'. rewrite Ht2 in Ht'. injection Ht' as <-. destruct (skip_tile _ _ _ t) eqn:Hs.
    - destruct H as [-> _]. split; [done|]. destruct HS as [HS|[HS Hk]]; [by left|right].
      unfold skip_tile in Hs. apply andb_true_iff in Hs as [Hs _]. apply andb_true_iff in Hs as [_ Hs]. apply negb_true_iff in Hs.
      destruct (HC Hs) as [E|E]; [|by rewrite <- E]. rewrite E in Hk. by destruct Hk as [|[|]].
    - destruct H as (bd & Hb & H). cbv zeta in H. destruct H as (Hx2 & -> & _).
      pose proof (allows_nested vr_ops e Q g a rez (g_meta g) (ga_clear a) bd HA Hrez) as HA'.
      set (a' := call_args _ _ _ _ _ _ _) in *.
      destruct (steps_evolve e Q sub false Hsub t a' None (child_origins _ _ _ _ _ _ _ _ HR) Hx2 (proj1 HA') (allows_chosen _ _ _ _ _ HA')) as [E EA].
      split.
      + rewrite EA. eapply child_evolve; [|exact E|exact HR]. intros t1 t2 u v c0 Hc Hr. by apply Hc.
      + right. split; [exact EA|]. by apply known_elem, HA.
  Qed.

  Lemma sub_query alg sg l r n u sg' o :
    op_get_layer vr_ops e sg l r n u = Ok (sg', o) -> carry (sub_rep alg) (sub_rep alg) sg sg'.
  Proof using Hsub.
    cbn. unfold g_get_layer. intros ([g1 o1] & H1 & H)%rbind_Ok. cbn [fst snd] in H.
    assert (g1 = sg') as ->.
    { destruct o1 as [l1|]; [|by injection H as <- _]. apply rbind_Ok in H as (a & _ & H). by injection H as <- _. }
    intros x y ct [HR HS]. unfold sub_rep, sub_alg_is. rewrite (query_meta _ _ _ _ _ _ _ _ _ H1). split; [|done].
    eapply child_evolve with (R := carry (srep (m_algorithm (g_meta sg))) (srep (m_algorithm (g_meta sg)))); [| |exact HR].
    { intros t1 t2 u0 v0 c0 Hc Hr. by apply Hc. }
    eapply evolve_query; [| | |exact H1]; [by intros ? ? ?|intros t1 t2 t3 H2 H3 u0 v0 c0 H4; by apply H3, H2|].
    intros. by eapply steps_query.
  Qed.

  Lemma vr_clean_inv g ct : vr_clean e P size sub b zarr disk g ct ->
    g_disk g = disk /\ exists seen ok, root_inv m0 (sub_rep (m_algorithm (g_meta g))) g ct seen ok.
  Proof using Hsize Hsub HP.
    assert (L : forall alg, tile_laws vr_ops m0 (sub_rep alg)) by (intros; by apply sub_laws).
    induction 1 as [|g ct d a H IH Hx|g ct inp a H IH Hx|g ct c H IH Hx|g ct a dask H IH Ha Hx|g ct layers rez nodata up g' o H IH Hq];
      [split; [done|]; exists [], true; by apply root_new|destruct IH as [ID (seen & ok & IH)]..].
    - pose proof (add_attrs vr_ops g (GoodData d) a) as [A1 A2]. split; [congruence|]. injection A1 as _ A1 _ _. rewrite A1.
      destruct (root_add vr_ops m0 _ (L _) Hsize eq_refl eq_refl eq_refl g ct seen ok (GoodData d) a IH) as [(H1 & _)|(d' & m1 & [= <-] & _ & _ & _ & _ & H2 & _)]; [done|]. eauto.
    - pose proof (add_attrs vr_ops g inp a) as [A1 A2]. split; [congruence|]. injection A1 as _ A1 _ _. rewrite A1.
      destruct (root_add vr_ops m0 _ (L _) Hsize eq_refl eq_refl eq_refl g ct seen ok inp a IH) as [(H1 & H2 & _)|(d' & m1 & _ & _ & _ & _ & H1 & _)]; [eauto|done].
    - pose proof (remove_attrs vr_ops g c) as [A1 A2]. split; [congruence|]. injection A1 as _ A1 _ _. rewrite A1.
      destruct (root_remove vr_ops m0 _ (L _) Hsize g ct seen ok c IH) as [_ H2]. destruct (H2 Hx) as [H3 _]. eauto.
    - destruct (sub_evolve g a dask Hx (HP _ Ha)) as [E ->].
      split; [by rewrite (ev_disk _ _ _ E)|]. exists seen, ok. eapply root_evolve; [|exact E|exact IH]. intros t t' x y c0 Hc Hr. by apply Hc.
    - rewrite (query_meta _ _ _ _ _ _ _ _ _ Hq).
      assert (E : evolve (carry (sub_rep (m_algorithm (g_meta g))) (sub_rep (m_algorithm (g_meta g)))) g g').
      { eapply evolve_query; [| | |exact Hq]; [by intros ? ? ?|intros t1 t2 t3 H1 H2 x y c0 H3; by apply H2, H1|].
        intros. by eapply sub_query. }
      split; [by rewrite (ev_disk _ _ _ E)|]. exists seen, ok. eapply root_evolve; [|exact E|exact IH]. intros t t' x y c0 Hc Hr. by apply Hc.
  Qed.
End vr.
