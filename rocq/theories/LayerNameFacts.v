(** Facts about the names of the layers of a grid. *)
From Verif Require Import Py Nd Numpy Point Bin Algorithms Tile Time Meta Disk Grid GridRun GridQuery GridOps
  Spec TileExec GridExec LayerNameSpec PyFacts TileFacts TileHistFacts GridBaseFacts GridInvFacts GridPlaceFacts GridPropFacts GridRunFacts GridCountFacts GridRootFacts GridSrFacts GridHistFacts GridCleanFacts GridUpdateFacts GridFlagFacts GridReadFacts GridMultiFacts GridMultiVrFacts.
Open Scope Z_scope.

Lemma Ok_same {A} (x y : A) : Ok x = Ok y -> x = y.
Proof. congruence. Qed.
Lemma rofopt_some {A} (o : option A) ex a : rofopt o ex = Ok a -> o = Some a.
Proof. destruct o; cbn; congruence. Qed.
Section keys.
  Context {V : Type}.
  Implicit Types l : dict string V.
  Lemma keys_same l n v : is_Some (dget l n) -> dkeys (dset l n v) = dkeys l.
  Proof. intros H%dget_is_Some. rewrite dkeys_dset. by rewrite decide_True. Qed.
  Lemma has_same l l' n : dkeys l' = dkeys l -> is_Some (dget l n) -> is_Some (dget l' n).
  Proof. rewrite !dget_is_Some. by intros ->. Qed.
End keys.
Lemma blank_keys dk l l' : blank_layers dk l = Ok l' -> dkeys l' = dkeys l.
Proof.
  unfold blank_layers. intros (d & Hd & H)%rbind_Ok. apply rbind_Ok in H as (n & Hn & H). apply Ok_same in H. subst l'.
  assert (Hf : forall nvs (l0 : dict string arr), dkeys (foldl (fun acc nv => match dget acc nv.1 with Some a => dset acc nv.1 (blank a nv.2) | None => acc end) l0 nvs) = dkeys l0).
  { induction nvs as [|nv nvs IH]; intros l0; cbn [foldl]; [done|]. rewrite IH. destruct (dget l0 nv.1) eqn:E; [|done]. apply keys_same. by rewrite E. }
  rewrite Hf. apply rofopt_some in Hd, Hn. rewrite keys_same by (by rewrite Hn). apply keys_same. by rewrite Hd.
Qed.
Lemma initial_keys dt b alg rows cols : alg ∈ ["mean"; "shoalest"; "cube"] ->
  dkeys (initial_layers dt (depth_key_of b) true alg rows cols) = given_layers b false alg (has_tvu dt) (has_thu dt).
Proof.
  intros H. rewrite !elem_of_cons in H. destruct H as [->|[->|[->|H]]]; [..|by apply not_elem_of_nil in H]; destruct b, (has_tvu dt) eqn:E1, (has_thu dt) eqn:E2; unfold initial_layers; rewrite ?E1, ?E2; reflexivity.
Qed.
Lemma simple_keys e a t r t' : run_simple_grid e a t r = Ok t' -> is_Some (dget (t_cells t) r) ->
  exists l, t_cells t' = dset (t_cells t) r l /\ dkeys l = dkeys (layers_at t r) /\ t_backscatter t' = t_backscatter t.
Proof.
  unfold run_simple_grid. destruct (t_data t) as [d|]; [|done]. intros (tv & Htv & H)%rbind_Ok. apply rbind_Ok in H as (th & Hth & H).
  apply rbind_Ok in H as (idx & Hidx & H). apply rbind_Ok in H as (dg & Hdg & H). apply rbind_Ok in H as (ng & Hng & H). apply rbind_Ok in H as (o & Ho & H).
  apply Ok_same in H. subst t'. intros _. eexists. split; [reflexivity|]. split; [|done].
  apply rofopt_some in Hdg, Hng. set (l := layers_at t r) in *. set (l1 := dset l (t_depth_key t) _). set (l2 := dset l1 "density" _).
  assert (K1 : dkeys l1 = dkeys l) by (apply keys_same; by rewrite Hdg).
  assert (K2 : dkeys l2 = dkeys l). { rewrite <- K1. apply keys_same. eapply has_same; [exact K1|]. by rewrite Hng. }
  assert (HU : forall present name vals x (c : dict string arr) a0, unc_input present l name vals = Ok x -> dkeys c = dkeys l -> dkeys (round_if (0 <? length x.1)%nat c name a0) = dkeys l).
  { intros present name vals x c a0 Hx Hc. unfold unc_input in Hx. destruct present.
    - apply rbind_Ok in Hx as (g & Hg & Hx). apply Ok_same in Hx. subst x. apply rofopt_some in Hg. unfold round_if. destruct (_ <? _)%nat; [|done]. rewrite <- Hc. apply keys_same. eapply has_same; [exact Hc|]. by rewrite Hg.
    - apply Ok_same in Hx. by subst x. }
  eapply HU; [exact Hth|]. eapply HU; [exact Htv|]. exact K2.
Qed.
Lemma cube_keys e t r gp bd t' : run_cube_grid e t r gp bd = Ok t' ->
  exists l, t_cells t' = dset (t_cells t) r l /\ dkeys l = dkeys (layers_at t r) /\ t_backscatter t' = t_backscatter t.
Proof.
  unfold run_cube_grid. destruct (t_data t) as [d|]; [|done]. destruct (negb _); [done|]. intros (tpu & Ht & H)%rbind_Ok. apply rbind_Ok in H as (hyp & Hh & H).
  apply rbind_Ok in H as (ratio & Hr & H). apply rbind_Ok in H as (idx & Hidx & H). apply rbind_Ok in H as (dg & Hdg & H). apply rbind_Ok in H as (ng & Hng & H). apply rbind_Ok in H as (o & Ho & H).
  apply Ok_same in H. subst t'. eexists. split; [reflexivity|]. split; [|done]. apply rofopt_some in Ht, Hh, Hr, Hdg, Hng. set (l := layers_at t r) in *.
  assert (Hs : forall (c : dict string arr) n v a0, dget l n = Some a0 -> dkeys c = dkeys l -> dkeys (dset c n v) = dkeys l).
  { intros c n v a0 Hn Hc. rewrite <- Hc. apply keys_same. eapply has_same; [exact Hc|]. by rewrite Hn. }
  eapply Hs; [exact Hr|]. eapply Hs; [exact Ht|]. eapply Hs; [exact Hh|]. eapply Hs; [exact Hng|]. eapply Hs; [exact Hdg|]. done.
Qed.
(** Gridding that clears first leaves one resolution with the layers of the algorithm. *)
Lemma grid_keys e t alg ro mode gp bd t' r : alg ∈ ["mean"; "shoalest"; "cube"] -> t_grid e t alg ro true mode gp bd = Ok (t', r) ->
  exists l, t_cells t' = [(r, l)] /\ dkeys l = given_layers (t_backscatter t) false alg (has_tvu (e_dt e)) (has_thu (e_dt e)).
Proof.
  intros HA Hg. destruct (t_grid_inv _ _ _ _ _ _ _ _ _ _ (proj1 (known_elem _) HA) Hg) as (_ & _ & (d & Hd) & _). revert Hg. unfold t_grid. intros (r' & Hr & H)%rbind_Ok. destruct (negb _); [done|]. apply rbind_Ok in H as (t2 & H2 & H). apply rbind_Ok in H as (t3 & H3 & H). apply Ok_same in H. injection H as <- <-.
  assert (P : exists l, t_cells t2 = [(r', l)] /\ dkeys l = given_layers (t_backscatter t) false alg (has_tvu (e_dt e)) (has_thu (e_dt e)) /\ t_backscatter t2 = t_backscatter t).
  { revert H2. unfold prepare_grid. cbn [clear_temp_data clear_grid t_cells set dmapkv dmem]. intros (t4 & H4 & H)%rbind_Ok.
    assert (E4 : exists rows cols, t_cells t4 = [(r', initial_layers (e_dt e) (t_depth_key t) true alg rows cols)] /\ t_backscatter t4 = t_backscatter t).
    { change (negb (dmem _ r')) with true in H4. cbn [orb] in H4. unfold new_grid in H4. destruct (negb _) in H4; [done|]. apply rbind_Ok in H4 as (ex & _ & H4). apply rbind_Ok in H4 as (ey & _ & H4). apply Ok_same in H4. subst t4.
      cbn. rewrite Hd. rewrite bool_decide_eq_true_2 by done. eexists _, _. split; reflexivity. }
    destruct E4 as (rows & cols & E4 & B4). apply rbind_Ok in H as (ex & _ & H). apply rbind_Ok in H as (ey & _ & H). apply rbind_Ok in H as (d' & _ & H).
    pose proof (initial_keys (e_dt e) (t_backscatter t) alg rows cols HA) as K. fold (t_depth_key t) in K.
    destruct (dget (t_indices t4) r') as [idx|].
    - apply rbind_Ok in H as (idx' & _ & H). apply rbind_Ok in H as (l & Hl & H). apply Ok_same in H. subst t2. exists l. cbn. rewrite E4. cbn. rewrite decide_True by done.
      split; [done|]. split; [|done]. rewrite (blank_keys _ _ _ Hl). unfold layers_at. rewrite E4. cbn [dget]. rewrite decide_True by done. exact K.
    - apply rbind_Ok in H as (idx & _ & H). apply Ok_same in H. subst t2. eexists. split; [exact E4|]. by split. }
  destruct P as (l & P1 & P2 & P3).
  assert (E : exists l', t_cells t3 = dset (t_cells t2) r' l' /\ dkeys l' = dkeys (layers_at t2 r') /\ t_backscatter t3 = t_backscatter t2).
  { unfold run_algorithm in H3. rewrite !elem_of_cons in HA.
    destruct HA as [->|[->|[->|HA]]]; [..|by apply not_elem_of_nil in HA]; [apply (simple_keys e Mean t2 r' t3 H3)|apply (simple_keys e Shoalest t2 r' t3 H3)|exact (cube_keys e t2 r' gp bd t3 H3)];
      rewrite P1; cbn; rewrite decide_True by done; eauto. }
  destruct E as (l' & E1 & E2 & _). exists l'. cbn [t_cells set]. change (t_cells (t3 <| t_changed := false |>)) with (t_cells t3). rewrite E1, P1. cbn [dset]. rewrite decide_True by done. split; [done|].
  rewrite E2. unfold layers_at. rewrite P1. cbn [dget]. rewrite decide_True by done. exact P2.
Qed.
Lemma reload_names t r l b alg tvu thu : t_cells t = [(r, l)] -> alg ∈ ["mean"; "shoalest"; "cube"] -> dkeys l = given_layers b false alg tvu thu ->
  exists l', t_cells (t_reload SaveGrid t) = [(r, l')] /\ dkeys l' = given_layers b true alg tvu thu.
Proof.
  intros Hc HA Hl. unfold t_reload. cbn [saves_grid]. cbn [t_cells set]. change (t_cells (t <| t_cells := ?c |>)) with c. rewrite Hc.
  eexists. split; [reflexivity|]. unfold stored_part.
  assert (HK : forall ns, dkeys (omap (fun n => match dget l n with Some a => Some (n, a) | None => None end) ns) = List.filter (fun n => dmem l n) ns).
  { induction ns as [|n ns IH]; [done|]. cbn [omap list_omap List.filter]. rewrite dmem_dget. destruct (dget l n) as [a|]; [rewrite bool_decide_eq_true_2 by eauto|rewrite bool_decide_eq_false_2 by (by intros [? ?])]; [|exact IH].
    change (dkeys ((n, a) :: ?x)) with (n :: dkeys x). by f_equal. }
  rewrite HK. unfold dmem. rewrite Hl. rewrite !elem_of_cons in HA.
  destruct HA as [->|[->|[->|HA]]]; [..|by apply not_elem_of_nil in HA]; destruct b, tvu, thu; vm_compute; reflexivity.
Qed.

(** ** Grids *)
Section after.
  Context (e : env) (b : bool).
  (** One resolution with these layers. *)
  Definition named (ns : list string) (t : tile) : Prop := exists r l, t_cells t = [(r, l)] /\ dkeys l = ns.
  Lemma sr_named g a dask k t' : origins sr_ops g -> ga_alg a ∈ ["mean"; "shoalest"; "cube"] -> ga_clear a = true ->
    exn_of (g_grid sr_ops e g a dask) = None -> (forall t, tile_at g k = Some t -> t_backscatter t = b) ->
    tile_at (st_of (g_grid sr_ops e g a dask)) k = Some t' -> named (given_layers b (g_disk g) (ga_alg a) (has_tvu (e_dt e)) (has_thu (e_dt e))) t'.
  Proof.
    intros Ho HA Hc Hx Hb Ht'. destruct (tile_at g k) as [t|] eqn:Ht; [|by rewrite (gd_none _ _ _ _ _ _ (sr_finished e g a dask Ho Hx) k Ht) in Ht'].
    destruct (sr_done_tile e g a dask Ho Hx) as (rez & Hrez & HT). destruct (HT k t Ht) as (t2 & Ht2 & H). rewrite Ht2 in Ht'. injection Ht' as ->. cbv zeta in H.
    assert (Hsk : skip_tile sr_ops a (clear_at sr_ops a (ga_clear a) (tile_list g) k) t = false).
    { unfold skip_tile, clear_at. rewrite Hc. cbn. by rewrite andb_false_r. }
    rewrite Hsk in H. destruct H as (bd & t1 & r1 & _ & _ & Hg & ->).
    assert (Hn : next_clear sr_ops a (ga_clear a) = true) by (unfold next_clear; rewrite Hc; by destruct (_ && _)). rewrite Hn in Hg.
    destruct (grid_keys _ _ _ _ _ _ _ _ _ HA Hg) as (l & Hl & Hk). rewrite (Hb t eq_refl) in Hk. destruct (g_disk g); [|by exists r1, l].
    destruct (reload_names _ _ _ _ _ _ _ Hl HA Hk) as (l' & Hl' & Hk'). by exists r1, l'.
  Qed.
  Lemma sr_names_of (g : sr_grid) ns : g_tiles g <> None -> (exists t, t ∈ live_tiles g) -> (forall k t, tile_at g k = Some t -> named ns t) -> g_return_layer_names sr_ops g = Ok ns.
  Proof.
    intros Ht [t0 Hl] HN. unfold g_return_layer_names. rewrite sr_no_grid_false; [|intros k t Hk; destruct (HN k t Hk) as (r & l & -> & _); done|done]. cbn [rbind].
    destruct (live_tiles g) as [|t l] eqn:El; [by apply not_elem_of_nil in Hl|]. destruct (live_first _ _ _ El) as [k Hk]. destruct (HN k t Hk) as (r & ly & Hc & Hk').
    cbn [map op_first_layers sr_ops]. rewrite Hc. cbn. by rewrite Hk'.
  Qed.
  Lemma vr_names_of (g : vr_grid) ns1 ns2 : g_tiles g <> None -> (exists sg, sg ∈ live_tiles g) ->
    (forall k sg, tile_at g k = Some sg -> (exists n, m_ntiles (g_meta sg) = Some n /\ 0 < n) /\ (exists t, t ∈ live_tiles sg) /\ forall j t, tile_at sg j = Some t -> named ns1 t \/ named ns2 t) ->
    g_return_layer_names vr_ops g = Ok ns1 \/ g_return_layer_names vr_ops g = Ok ns2.
  Proof.
    intros Ht [sg0 Hl] HN. unfold g_return_layer_names. rewrite vr_no_grid_false; [|done|]. 2:{ intros k sg Hk. destruct (HN k sg Hk) as (_ & H1 & H2). split; [done|]. intros j t Hj. destruct (H2 j t Hj) as [(r & l & -> & _)|(r & l & -> & _)]; done. }
    cbn [rbind]. destruct (live_tiles g) as [|sg l] eqn:El; [by apply not_elem_of_nil in Hl|]. destruct (live_first _ _ _ El) as [k Hk]. destruct (HN k sg Hk) as ((n & Hn & Hn0) & [t0 Hl0] & H2).
    cbn [map op_first_layers vr_ops grid_ops]. rewrite Hn. destruct (0 <? n) eqn:E0; [|lia]. destruct (live_tiles sg) as [|t l'] eqn:El'; [by apply not_elem_of_nil in Hl0|].
    destruct (live_first _ _ _ El') as [j Hj]. cbn [map op_first_layers sr_ops]. destruct (H2 j t Hj) as [(r & ly & Hc & Hk')|(r & ly & Hc & Hk')]; [left|right]; rewrite Hc; cbn; by rewrite Hk'.
  Qed.
  Lemma vr_named g a dask k sg' j t' : ga_alg a ∈ ["mean"; "shoalest"; "cube"] -> ga_clear a = true ->
    exn_of (g_grid vr_ops e g a dask) = None ->
    (forall k sg, tile_at g k = Some sg -> origins sr_ops sg /\ forall j t, tile_at sg j = Some t -> t_backscatter t = b) ->
    tile_at (st_of (g_grid vr_ops e g a dask)) k = Some sg' -> tile_at sg' j = Some t' ->
    exists d, named (given_layers b d (ga_alg a) (has_tvu (e_dt e)) (has_thu (e_dt e))) t'.
  Proof.
    intros HA Hc Hx Hb Ht' Hj. destruct (tile_at g k) as [t|] eqn:Ht; [|by rewrite (gd_none _ _ _ _ _ _ (vr_finished e g a dask (vr_origins g) Hx) k Ht) in Ht'].
    destruct (vr_done_tile e g a dask Hx) as (rez & Hrez & HT). destruct (HT k t Ht) as (t2 & Ht2 & H). rewrite Ht2 in Ht'. injection Ht' as ->.
    assert (Hsk : skip_tile vr_ops a (ga_clear a) t = false).
    { unfold skip_tile. rewrite Hc. cbn. by rewrite andb_false_r. }
    rewrite Hsk in H. destruct H as (bd & _ & H). cbv zeta in H. set (a' := call_args _ _ _ _ _ _ _) in H. destruct H as (Hx' & -> & _).
    destruct (Hb k t Ht) as [Ho Hbk]. exists (g_disk t). exact (sr_named t a' None j t' Ho HA Hc Hx' (Hbk j) Hj).
  Qed.
End after.

(** ** The first layers that are found *)
Lemma found_skip {A} (l1 : list (res (option A))) a l2 : Forall (fun x => x = Ok None) l1 -> first_found (l1 ++ Ok (Some a) :: l2) = Ok (Some a).
Proof. induction 1 as [|x l1 -> _ IH]; [done|exact IH]. Qed.
Lemma found_none {A} (l : list (res (option A))) : Forall (fun x => x = Ok None) l -> first_found l = Ok None.
Proof. induction 1 as [|x l -> _ IH]; [done|exact IH]. Qed.
Lemma first_in_sub (sg : sr_grid) pre t post r l c : live_tiles sg = pre ++ t :: post -> (forall u, u ∈ pre -> t_cells u = []) -> t_cells t = (r, l) :: c ->
  first_found (map (op_first_layers sr_ops) (live_tiles sg)) = Ok (Some (dkeys l)).
Proof.
  intros -> Hpre Ht. rewrite map_app. cbn [map]. assert (E : op_first_layers sr_ops t = Ok (Some (dkeys l))) by (cbn; by rewrite Ht). rewrite E. apply found_skip. apply Forall_forall. intros x (u & -> & Hu)%elem_of_list_fmap. cbn. by rewrite (Hpre u Hu).
Qed.
Lemma none_in_sub (sg : sr_grid) : (forall u, u ∈ live_tiles sg -> t_cells u = []) -> first_found (map (op_first_layers sr_ops) (live_tiles sg)) = Ok None.
Proof. intros H. apply found_none. apply Forall_forall. intros x (u & -> & Hu)%elem_of_list_fmap. cbn. by rewrite (H u Hu). Qed.
