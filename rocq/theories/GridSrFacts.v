(** The invariants of grids hold for the two kinds of grids, after any history. *)
From Verif Require Import Py Nd Numpy Point Bin Algorithms Tile TileFail Time Meta Disk Grid GridRun GridQuery GridOps Spec TileExec GridExec.
From Verif Require Import PyFacts NdFacts NumpyFacts BinFacts TileFacts TileGridFacts TileRunFacts TileHistFacts.
From Verif Require Import GridBaseFacts GridPlaceFacts GridInvFacts GridRootFacts GridEvolveFacts.
Open Scope Z_scope.

(** ** Tiles *)
(** The points, containers and place of a tile. *)
Definition tile_keeps (t t' : tile) : Prop :=
  same_frame t t' /\ t_data t' = t_data t /\ t_container t' = t_container t.
Lemma tile_keeps_refl t : tile_keeps t t.
Proof. done. Qed.
Lemma tile_keeps_trans a b c : tile_keeps a b -> tile_keeps b c -> tile_keeps a c.
Proof. intros (A1 & A2 & A3) (B1 & B2 & B3). split; [by etransitivity|]. split; congruence. Qed.

Lemma new_grid_keeps e t r alg t' : new_grid e t r alg = Ok t' -> tile_keeps t t'.
Proof.
  unfold new_grid. destruct (negb _); [done|]. intros (ex & _ & H)%rbind_Ok. apply rbind_Ok in H as (ey & _ & H).
  by injection H as <-.
Qed.
Lemma prepare_keeps e t alg r gp t' : prepare_grid e t alg r gp = Ok t' -> tile_keeps t t'.
Proof.
  unfold prepare_grid. intros (t1 & H1 & H)%rbind_Ok.
  assert (K : tile_keeps t t1).
  { destruct (_ || _); [|by injection H1 as <-]. apply new_grid_keeps in H1. exact H1. }
  apply rbind_Ok in H as (ex & _ & H). apply rbind_Ok in H as (ey & _ & H). apply rbind_Ok in H as (d & _ & H).
  eapply tile_keeps_trans; [exact K|]. destruct (dget (t_indices t1) r).
  - apply rbind_Ok in H as (i & _ & H). apply rbind_Ok in H as (l' & _ & H). by injection H as <-.
  - apply rbind_Ok in H as (i & _ & H). by injection H as <-.
Qed.
Lemma run_simple_keeps e a t r t' : run_simple_grid e a t r = Ok t' -> tile_keeps t t'.
Proof.
  unfold run_simple_grid. destruct (t_data t) eqn:E; [|done].
  intros (? & _ & H)%rbind_Ok. apply rbind_Ok in H as (? & _ & H). apply rbind_Ok in H as (? & _ & H).
  apply rbind_Ok in H as (? & _ & H). apply rbind_Ok in H as (? & _ & H). apply rbind_Ok in H as (? & _ & H). by injection H as <-.
Qed.
Lemma run_cube_keeps e t r gp b t' : run_cube_grid e t r gp b = Ok t' -> tile_keeps t t'.
Proof.
  unfold run_cube_grid. destruct (t_data t) eqn:E; [|done]. destruct (negb _); [done|].
  intros (? & _ & H)%rbind_Ok. apply rbind_Ok in H as (? & _ & H). apply rbind_Ok in H as (? & _ & H).
  apply rbind_Ok in H as (? & _ & H). apply rbind_Ok in H as (? & _ & H). apply rbind_Ok in H as (? & _ & H).
  apply rbind_Ok in H as (? & _ & H). by injection H as <-.
Qed.
Lemma run_container_keeps a t r c t' : run_simple_container a t r c = Ok t' -> tile_keeps t t'.
Proof.
  unfold run_simple_container. destruct (t_data t) eqn:E; [|done].
  intros (? & _ & H)%rbind_Ok. apply rbind_Ok in H as (? & _ & H). apply rbind_Ok in H as (? & _ & H).
  apply rbind_Ok in H as (? & _ & H). by injection H as <-.
Qed.
Lemma clear_temp_keeps t r : tile_keeps t (clear_temp_data t r).
Proof. unfold clear_temp_data. repeat case_match; done. Qed.
Lemma t_grid_keeps e t alg ro clear mode gp border t' r :
  t_grid e t alg ro clear mode gp border = Ok (t', r) -> tile_keeps t t'.
Proof.
  unfold t_grid. intros (r' & _ & H)%rbind_Ok. destruct (negb _); [done|].
  apply rbind_Ok in H as (t2 & H2 & H). apply rbind_Ok in H as (t3 & H3 & H). injection H as <- <-.
  assert (K0 : tile_keeps t (if clear then clear_grid t else t)) by (by destruct clear).
  assert (K3 : tile_keeps t2 t3).
  { unfold run_algorithm in H3. repeat case_bool_decide; [by eapply run_simple_keeps..|by eapply run_cube_keeps|by injection H3 as <-]. }
  eapply tile_keeps_trans; [exact K0|]. eapply tile_keeps_trans; [apply clear_temp_keeps|].
  eapply tile_keeps_trans; [by eapply prepare_keeps|]. exact K3.
Qed.
Lemma t_query_keeps e t layer ro nodata up t' o :
  t_get_layers_by_name e t layer ro nodata up = Ok (t', o) -> tile_keeps t t'.
Proof.
  unfold t_get_layers_by_name. destruct (t_is_empty t); [by intros [= <- _]|]. intros (mr & _ & H)%rbind_Ok.
  destruct mr as [r|]; [|by injection H as <- _]. apply rbind_Ok in H as (t1 & H1 & H).
  apply rbind_Ok in H as (a & _ & H). injection H as <- _. unfold prepare_query in H1.
  case_bool_decide.
  { unfold run_slopes in H1. destruct (dmem _ _); [by injection H1 as <-|].
    apply rbind_Ok in H1 as (? & _ & H1). apply rbind_Ok in H1 as (? & _ & H1). apply rbind_Ok in H1 as (? & _ & H1).
    apply rbind_Ok in H1 as (? & _ & H1). apply rbind_Ok in H1 as (? & _ & H1). by injection H1 as <-. }
  destruct (is_container_query layer); [|by injection H1 as <-].
  destruct (dmem (t_container t) layer).
  - repeat case_bool_decide; [by eapply run_container_keeps..|by destruct (e_cube_enabled e)|by injection H1 as <-].
  - apply rbind_Ok in H1 as (? & _ & H1). by injection H1 as <-.
Qed.

Lemma tile_rep_keeps t t' ct : tile_keeps t t' -> tile_rep t ct -> tile_rep t' ct.
Proof.
  intros (_ & Hd & Hc) [R1 R2 R3 R4]. split; [done| |by rewrite Hd|by rewrite Hc]. unfold pts in *. by rewrite Hd.
Qed.

(** A tile of side [s] at (x, y) holding [ct], all of it inside. *)
Definition sr_rep (s : Z) (b : bool) (t : tile) (x y : Z) (ct : content) : Prop :=
  at_square t x y s b /\ tile_rep t ct /\ Forall (fun p => in_square x y s (px p) (py p)) (all_points ct).

Lemma put_c_fresh ct c d : c ∉ ct.*1 -> put_c ct c d = ct ++ [(c, d)].
Proof. intros H. unfold put_c. by rewrite drop_c_notin. Qed.

Lemma t_is_empty_rep t ct : tile_rep t ct -> t_is_empty t = bool_decide (all_points ct = []).
Proof.
  intros HR. unfold t_is_empty. rewrite <- (tr_data _ _ HR). unfold pts.
  unfold t_points_count. destruct (t_data t) as [[|]|]; cbn; try done; by rewrite bool_decide_eq_true_2.
Qed.

Lemma sr_laws m0 : tile_laws sr_ops m0 (sr_rep (m_tile_size m0) (m_backscatter m0)).
Proof.
  split.
  - intros m disk x y F. cbn. rewrite (mf_size _ _ F), (mf_back _ _ F).
    split; [by apply conj|]. split; [apply new_tile_rep|constructor].
  - intros t x y ct d a (H1 & H2 & H3) Hd Hin Hfresh _. cbn. split; [done|].
    split; [eapply at_square_frame; [apply t_add_frame|done]|]. split.
    + rewrite <- put_c_fresh by done. by apply tile_rep_add.
    + rewrite all_points_snoc. by apply Forall_app.
  - intros t x y ct c (H1 & H2 & H3). cbn. split; [done|].
    split; [eapply at_square_frame; [apply t_remove_frame|done]|]. split; [by apply tile_rep_remove|by apply drop_c_Forall].
  - intros t x y ct (H1 & H2 & H3). cbn. by apply t_is_empty_rep.
  - intros t x y ct (H1 & H2 & H3). cbn. unfold t_points_count. rewrite <- (tr_data _ _ H2). unfold pts. by destruct (t_data t).
  - intros md t x y ct (H1 & H2 & H3). cbn. unfold t_reload. destruct (saves_grid md); [|done].
    split; [done|]. split; [|done]. eapply tile_rep_keeps; [|done]. done.
Qed.

Lemma prepare_left_keeps e t alg r gp : tile_keeps t (prepare_left e t alg r gp).
Proof.
  unfold prepare_left. set (fresh := t <| t_algorithm := _ |> <| t_params := _ |>). assert (K0 : tile_keeps t fresh) by done.
  destruct (if _ || _ then _ else _) as [t1|] eqn:E; [|done].
  assert (K1 : tile_keeps t t1).
  { destruct (_ || _); [|by injection E as <-]. eapply tile_keeps_trans; [exact K0|]. revert E. unfold new_grid. destruct (negb _); [done|].
    intros (? & _ & E)%rbind_Ok. apply rbind_Ok in E as (? & _ & E). by injection E as <-. }
  repeat case_match; done.
Qed.
Lemma left_keeps e t alg ro clear mode gp : tile_keeps t (t_grid_left e t alg ro clear mode gp).
Proof.
  unfold t_grid_left. destruct (choose_resolution _ _ _ _) as [r|]; [|done]. destruct (negb _); [done|]. cbv zeta.
  assert (K0 : tile_keeps t (if clear then clear_grid t else t)) by (by destruct clear).
  eapply tile_keeps_trans; [exact K0|]. eapply tile_keeps_trans; [apply (clear_temp_keeps _ r)|].
  destruct (prepare_grid _ _ _ _ _) eqn:E; [by eapply prepare_keeps|apply prepare_left_keeps].
Qed.
Lemma sr_grid_keeps e t a : tile_keeps t (st_of (op_grid sr_ops e t a).1).
Proof. cbn -[t_grid_left]. destruct (t_grid _ _ _ _ _ _ _ _) as [[t' r]|] eqn:E; cbn -[t_grid_left]; [by eapply t_grid_keeps|apply left_keeps]. Qed.
Lemma sr_get_keeps e t l r n u t' o : op_get_layer sr_ops e t l r n u = Ok (t', o) -> tile_keeps t t'.
Proof. cbn. apply t_query_keeps. Qed.
Lemma sr_reload_keeps m t : tile_keeps t (op_reload sr_ops m t).
Proof. cbn. unfold t_reload. by destruct (saves_grid m). Qed.

(** ** Invariants under gridding and querying *)
Section keep.
  Context {T : Type} (m0 : gmeta) (rep rep' : T -> Z -> Z -> content -> Prop) (R : T -> T -> Prop).
  Context (HR : forall t t' x y ct, R t t' -> rep t x y ct -> rep' t' x y ct).
  Notation s := (m_tile_size m0).

  Lemma core_frame m m' : core_meta m m' -> meta_frame m m'.
  Proof. intros (?&?&?&?&->). by split. Qed.

  Lemma count_live_rel (fl fl' : list (option T)) : Forall2 (opt_rel R) fl fl' -> count_live fl' = count_live fl.
  Proof. clear. unfold count_live, omap. induction 1 as [|[a|] [b|] l l' Hab _ IH]; simpl in *; try done. lia. Qed.
  Lemma slots_rel lx ly nx ny fl fl' ct :
    Forall2 (opt_rel R) fl fl' -> slots m0 rep lx ly nx ny fl ct -> slots m0 rep' lx ly nx ny fl' ct.
  Proof using HR.
    intros HF [Hl Hs]. split; [by rewrite <- (Forall2_length _ _ _ HF)|]. intros r c Hr Hc.
    destruct (Hs r c Hr Hc) as (o & Ho & Hslot). destruct (Forall2_lookup_l _ _ _ _ _ HF Ho) as (o' & Ho' & Hrel).
    exists o'. split; [done|]. destruct o as [t|], o' as [t'|]; simpl in *; try done. destruct Hslot. split; [done|]. by eapply HR.
  Qed.
  Lemma placed_rel g g' ct lx ly nx ny a :
    evolve R g g' -> placed m0 rep g ct lx ly nx ny a ->
    exists a', placed m0 rep' g' ct lx ly nx ny a' /\ count_live (nflat a') = count_live (nflat a).
  Proof using HR.
    intros [E1 E2 E3 E4 E5] [P1 P2 P3 P4 P5 P6 P7 P8]. rewrite P4 in E5. destruct (g_tiles g') as [a'|] eqn:Ha; [|done].
    destruct E5 as (F1 & F2 & F3). exists a'. split; [|by apply count_live_rel].
    split; try done; try congruence. by eapply slots_rel.
  Qed.
  Lemma child_evolve X Y W g g' ct :
    evolve R g g' -> child_inv m0 rep X Y W g ct -> child_inv m0 rep' X Y W g' ct.
  Proof using HR.
    intros HE [[B1 B2 B3 B4 B5 B6 B7 B8] Hst]. pose proof HE as [E1 E2 E3 E4 E5]. split.
    - pose proof (core_frame _ _ E4) as HF. destruct E4 as (rz & al & gr & pr & E4). rewrite E4 in HF.
      split; rewrite ?E4; cbn; try done; [by eapply meta_frame_trans|congruence].
    - destruct Hst as [(H1 & H2 & H3)|(H1 & a & H2 & H3 & H4)].
      + left. rewrite H1 in E5. destruct (g_tiles g'); [done|]. destruct E4 as (rz & al & gr & pr & ->). done.
      + right. split; [done|]. destruct (placed_rel _ _ _ _ _ _ _ _ HE H2) as (a' & Ha & Hc). exists a'. rewrite Hc.
        destruct E4 as (rz & al & gr & pr & ->). done.
  Qed.
  Lemma root_evolve g g' ct seen ok :
    evolve R g g' -> root_inv m0 rep g ct seen ok -> root_inv m0 rep' g' ct seen ok.
  Proof using HR.
    intros HE [[B1 B2 B3 B4] Hst]. pose proof HE as [E1 E2 E3 E4 E5]. split.
    - pose proof (core_frame _ _ E4) as HF. destruct E4 as (rz & al & gr & pr & E4). rewrite E4 in HF.
      split; rewrite ?E4; cbn; try done. by eapply meta_frame_trans.
    - destruct Hst as [(H1 & H2 & H3 & H4 & H5)|(Hne & lx & ly & nx & ny & a & P & F & N & S1 & S2 & S3)].
      + left. rewrite H1 in E5. destruct (g_tiles g') eqn:Ht; [done|]. destruct E4 as (rz & al & gr & pr & E4).
        split; [done|]. split; [done|]. split; [done|]. rewrite E4. split; [done|]. by rewrite E2.
      + right. split; [done|]. destruct (placed_rel _ _ _ _ _ _ _ _ HE P) as (a' & Ha & Hc).
        exists lx, ly, nx, ny, a'. split; [done|]. rewrite Hc. unfold framed, mask_fits. rewrite E2.
        destruct E4 as (rz & al & gr & pr & ->). done.
  Qed.
End keep.

(** ** Single resolution grids *)
Section sr.
  Context (e : env) (size : Z) (backscatter zarr disk : bool) (Hsize : 0 < size).
  Notation m0 := (new_sr_meta 0 0 size backscatter zarr).
  Notation rep := (sr_rep size backscatter).

  Lemma sr_rep_keeps t t' x y ct : tile_keeps t t' -> rep t x y ct -> rep t' x y ct.
  Proof.
    intros HK (H1 & H2 & H3). split; [by eapply at_square_frame; [apply HK|]|]. split; [by eapply tile_rep_keeps|done].
  Qed.

  Lemma sr_history_inv g ct seen ok :
    sr_history e size backscatter zarr disk g ct seen ok -> root_inv m0 rep g ct seen ok.
  Proof using Hsize.
    induction 1 as [|g ct seen ok d a H IH Hx|g ct seen ok inp a H IH Hx|g ct seen ok c H IH Hx Hne|g ct seen ok c H IH Hx Hne|g ct seen ok a dask H IH|g ct seen ok layers rez nodata up g' o H IH Hq].
    - by apply root_new.
    - destruct (root_add sr_ops m0 rep (sr_laws m0) Hsize eq_refl eq_refl eq_refl g ct seen ok (GoodData d) a IH) as [(H1 & _)|(d' & m1 & [= <-] & _ & _ & _ & _ & H2 & _)]; [done|exact H2].
    - destruct (root_add sr_ops m0 rep (sr_laws m0) Hsize eq_refl eq_refl eq_refl g ct seen ok inp a IH) as [(H1 & H2 & _)|(d' & m1 & _ & _ & _ & _ & H1 & _)]; done.
    - destruct (root_remove sr_ops m0 rep (sr_laws m0) Hsize g ct seen ok c IH) as [_ H2]. destruct (H2 Hx) as [H3 _].
      rewrite bool_decide_eq_false_2 in H3 by done. done.
    - destruct (root_remove sr_ops m0 rep (sr_laws m0) Hsize g ct seen ok c IH) as [_ H2]. destruct (H2 Hx) as [H3 _].
      rewrite bool_decide_eq_true_2 in H3 by done. by rewrite Hne in H3.
    - eapply root_evolve; [apply sr_rep_keeps| |exact IH].
      apply evolve_grid; [apply tile_keeps_refl|apply tile_keeps_trans|apply sr_grid_keeps|apply sr_reload_keeps].
    - eapply root_evolve; [apply sr_rep_keeps| |exact IH].
      eapply evolve_query; [apply tile_keeps_refl|apply tile_keeps_trans|apply sr_get_keeps|done].
  Qed.
End sr.

(** ** Variable resolution grids *)
Section vr.
  Context (e : env) (size sub : Z) (backscatter zarr disk : bool) (Hsize : 0 < size) (Hsub : 0 < sub).
  Notation m0 := (new_vr_meta 0 0 size sub backscatter zarr).
  (** The attributes a sub-grid at (x, y) was created with. *)
  Definition sub0 (x y : Z) : gmeta := sub_meta m0 x y.
  Definition vr_rep (g : grid tile) (x y : Z) (ct : content) : Prop :=
    child_inv (sub0 x y) (sr_rep sub false) x y size g ct.

  Lemma sub_meta_frame m x y : meta_frame m0 m -> sub_meta m x y = sub0 x y.
  Proof. intros F. unfold sub0, sub_meta. by rewrite (mf_sub _ _ F), (mf_zarr _ _ F), (mf_size _ _ F). Qed.

  Lemma vr_laws : tile_laws vr_ops m0 vr_rep.
  Proof using Hsize Hsub.
    split.
    - intros m d x y F. cbn. rewrite (sub_meta_frame _ _ _ F). unfold vr_rep. by apply child_new.
    - intros g x y ct d a H Hd Hin Hf Hn. cbn.
      destruct (child_add sr_ops (sub0 x y) (sr_rep sub false) (sr_laws (sub0 x y)) Hsub eq_refl x y size Hsize eq_refl g ct d a) as (H1 & H2 & _); done.
    - intros g x y ct c H. cbn. apply (child_remove sr_ops (sub0 x y) (sr_rep sub false)); try done. apply (sr_laws (sub0 x y)).
    - intros g x y ct [B [(H1 & -> & _)|(H1 & a & H2 & _)]]; cbn.
      + unfold g_is_empty. by rewrite H1.
      + destruct H2 as [P1 P2 P3 P4 P5 P6 P7 P8].
        rewrite (slots_is_empty (sub0 x y) (sr_rep sub false) Hsub g ct _ _ _ _ a P4 P7 P8); [|apply B].
        apply bool_decide_ext. symmetry. apply all_points_nil_iff. apply B.
    - intros g x y ct [B [(H1 & -> & _)|(H1 & a & H2 & _)]]; cbn.
      + unfold g_points_count, live_tiles. by rewrite H1.
      + destruct H2 as [P1 P2 P3 P4 P5 P6 P7 P8].
        exact (slots_count sr_ops (sub0 x y) (sr_rep sub false) (sr_laws (sub0 x y)) Hsub g a _ _ _ _ ct P4 P7 P8).
    - done.
  Qed.

  Definition sub_keeps : grid tile -> grid tile -> Prop := evolve tile_keeps.
  Lemma vr_rep_keeps t t' x y ct : sub_keeps t t' -> vr_rep t x y ct -> vr_rep t' x y ct.
  Proof. intros HK. apply child_evolve with (R := tile_keeps); [apply sr_rep_keeps|done]. Qed.
  Lemma sub_keeps_refl g : sub_keeps g g.
  Proof. apply evolve_refl, tile_keeps_refl. Qed.
  Lemma sub_keeps_trans a b c : sub_keeps a b -> sub_keeps b c -> sub_keeps a c.
  Proof. apply evolve_trans, tile_keeps_trans. Qed.
  Lemma vr_grid_keeps g a : sub_keeps g (st_of (op_grid vr_ops e g a).1).
  Proof. cbn. apply evolve_grid; [apply tile_keeps_refl|apply tile_keeps_trans|apply sr_grid_keeps|apply sr_reload_keeps]. Qed.
  Lemma vr_get_keeps g l r n u g' o : op_get_layer vr_ops e g l r n u = Ok (g', o) -> sub_keeps g g'.
  Proof.
    cbn. unfold g_get_layer. intros ([g1 o1] & H1 & H)%rbind_Ok. cbn [fst snd] in H.
    assert (HK : sub_keeps g g1) by (eapply evolve_query; [apply tile_keeps_refl|apply tile_keeps_trans|apply sr_get_keeps|exact H1]).
    destruct o1 as [l1|]; [|by injection H as <- _]. apply rbind_Ok in H as (a & _ & H). by injection H as <- _.
  Qed.

  Lemma vr_history_inv g ct seen ok :
    vr_history e size sub backscatter zarr disk g ct seen ok -> root_inv m0 vr_rep g ct seen ok.
  Proof using Hsize Hsub.
    induction 1 as [|g ct seen ok d a H IH Hx|g ct seen ok inp a H IH Hx|g ct seen ok c H IH Hx Hne|g ct seen ok c H IH Hx Hne|g ct seen ok a dask H IH|g ct seen ok layers rez nodata up g' o H IH Hq].
    - by apply root_new.
    - destruct (root_add vr_ops m0 vr_rep vr_laws Hsize eq_refl eq_refl eq_refl g ct seen ok (GoodData d) a IH) as [(H1 & _)|(d' & m1 & [= <-] & _ & _ & _ & _ & H2 & _)]; [done|exact H2].
    - destruct (root_add vr_ops m0 vr_rep vr_laws Hsize eq_refl eq_refl eq_refl g ct seen ok inp a IH) as [(H1 & H2 & _)|(d' & m1 & _ & _ & _ & _ & H1 & _)]; done.
    - destruct (root_remove vr_ops m0 vr_rep vr_laws Hsize g ct seen ok c IH) as [_ H2]. destruct (H2 Hx) as [H3 _].
      rewrite bool_decide_eq_false_2 in H3 by done. done.
    - destruct (root_remove vr_ops m0 vr_rep vr_laws Hsize g ct seen ok c IH) as [_ H2]. destruct (H2 Hx) as [H3 _].
      rewrite bool_decide_eq_true_2 in H3 by done. by rewrite Hne in H3.
    - eapply root_evolve; [apply vr_rep_keeps| |exact IH].
      apply evolve_grid; [apply sub_keeps_refl|apply sub_keeps_trans|apply vr_grid_keeps|intros; apply sub_keeps_refl].
    - eapply root_evolve; [apply vr_rep_keeps| |exact IH].
      eapply evolve_query; [apply sub_keeps_refl|apply sub_keeps_trans|apply vr_get_keeps|done].
  Qed.
End vr.
