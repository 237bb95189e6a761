(** create_grid, save and load_grid. *)
From Coq Require Import Lqa.
From Verif Require Import Py Nd Numpy Point Bin Algorithms Tile Time Meta Disk Grid GridRun GridOps Store Convenience Spec TileExec GridExec StoreExec PyFacts NdFacts FsFacts GridBaseFacts GridPlaceFacts GridInvFacts GridRootFacts GridLoadFacts GridReachFacts GridVrFacts.
Open Scope Z_scope.

(** ** The entries of the container folder *)
Lemma filter_keys_nodup (P : path -> bool) (f : fs) : NoDup (dkeys f) -> NoDup (dkeys (filter (fun kv : path * node => P kv.1 = false) f)).
Proof.
  unfold dkeys. induction f as [|[p n] f IH]; intros H; [done|]. cbn in H. apply NoDup_cons in H as [H1 H2].
  destruct (P p) eqn:E; [rewrite filter_cons_False by (cbn; congruence); by apply IH|]. rewrite filter_cons_True by done. cbn. apply NoDup_cons. split; [|by apply IH].
  intros H. apply H1. apply elem_of_list_fmap in H as ([p' n'] & -> & H). apply elem_of_list_filter in H as [_ H]. apply elem_of_list_fmap. by exists (p', n').
Qed.
Lemma dset_keys_nodup (f : fs) p n : NoDup (dkeys f) -> NoDup (dkeys (dset f p n)).
Proof. intros H. rewrite dkeys_dset. destruct (decide _) as [|D]; [done|]. apply NoDup_app. split; [done|]. split; [|apply NoDup_singleton]. intros x Hx ->%elem_of_list_singleton. done. Qed.
Lemma run_keys_nodup l : forall f : fs, NoDup (dkeys f) -> NoDup (dkeys (fs_run f l)).
Proof.
  induction l as [|s l IH]; intros f H; [done|]. cbn [fs_run foldl]. apply IH. destruct s as [p|p x|p|p]; cbn [fs_step].
  - destruct (fs_exists f p); [done|by apply dset_keys_nodup].
  - by apply dset_keys_nodup.
  - by apply filter_keys_nodup.
  - by apply filter_keys_nodup.
Qed.
Lemma root_entry_elem (f : fs) s : s ∈ root_entries f <-> is_Some (dget f [FFolder (NRoot s)]).
Proof.
  unfold root_entries, fs_listdir. rewrite elem_of_list_omap, dget_is_Some. split.
  - intros (n & Hn & E). apply elem_of_list_omap in Hn as (q & Hq & E'). unfold child_of in E'. destruct (reverse q) as [|x rp] eqn:Er; [done|].
    case_bool_decide as D; [|done]. injection E' as <-. destruct x as [[s'|]| | | | | | |]; try done. injection E as ->.
    apply (f_equal reverse) in Er. rewrite reverse_involutive, reverse_cons, D in Er. by subst q.
  - intros H. exists (FFolder (NRoot s)). split; [|done]. apply elem_of_list_omap. by exists [FFolder (NRoot s)].
Qed.
Lemma omap_nodup {A B} (h : A -> option B) l : (forall x y b, h x = Some b -> h y = Some b -> x = y) -> NoDup l -> NoDup (omap h l).
Proof.
  intros H. induction 1 as [|x l Hx N IH]; [apply NoDup_nil_2|]. cbn. destruct (h x) as [b|] eqn:E; [|done]. apply NoDup_cons. split; [|done].
  intros (y & Hy & E')%elem_of_list_omap. by rewrite (H x y b E E') in Hx.
Qed.
Lemma root_entries_nodup (f : fs) : NoDup (dkeys f) -> NoDup (root_entries f).
Proof.
  intros H. apply omap_nodup.
  { intros x y b Hx Hy. destruct x as [[]| | | | | | |]; try done. destruct y as [[]| | | | | | |]; try done. congruence. }
  apply omap_nodup; [|done]. intros x y b Hx Hy. unfold child_of in *.
  destruct (reverse x) as [|a rx] eqn:Ex; [done|]. destruct (reverse y) as [|a' ry] eqn:Ey; [done|].
  case_bool_decide as D1; [|done]. case_bool_decide as D2; [|done].
  apply (f_equal reverse) in Ex, Ey. rewrite reverse_involutive, reverse_cons in Ex, Ey. congruence.
Qed.
Lemma pick_root_only (l : list string) s : NoDup l -> s ∈ l -> s ∈ root_names -> (forall s', s' ∈ l -> s' ∈ root_names -> s' = s) -> pick_root l = Ok s.
Proof.
  intros N Hs Hr H. unfold pick_root. rewrite decide_False by (intros ->; by apply not_elem_of_nil in Hs).
  assert (N' : NoDup (filter (fun n => n ∈ root_names) l)) by by apply NoDup_filter.
  assert (A : forall x, x ∈ filter (fun n => n ∈ root_names) l <-> x = s).
  { intros x. rewrite elem_of_list_filter. split; [intros []; by apply H|by intros ->]. }
  destruct (filter (fun n => n ∈ root_names) l) as [|x [|y r]].
  - exfalso. destruct (A s) as [_ B]. specialize (B eq_refl). by apply not_elem_of_nil in B.
  - f_equal. apply A. by left.
  - exfalso. apply NoDup_cons in N' as [N' _]. apply N'. assert (x = s) as -> by (apply A; by left). assert (y = s) as -> by (apply A; right; by left). by left.
Qed.
Lemma pick_root_Ok l s : pick_root l = Ok s -> s ∈ root_names /\ filter (fun n => n ∈ root_names) l = [s].
Proof.
  unfold pick_root. destruct (decide _); [done|]. destruct (filter _ l) as [|x [|y r]] eqn:E; [done| |done]. intros [= <-]. split; [|done].
  assert (H : x ∈ filter (fun n => n ∈ root_names) l) by (rewrite E; by left). by apply elem_of_list_filter in H as [].
Qed.

(** ** Options *)
Lemma metres_pos e t : is_power_of_two (metres e t) = true -> 0 < t.
Proof.
  unfold is_power_of_two. intros H. destruct (Z.le_gt_cases t 0) as [Ht|]; [exfalso|done].
  assert (Hm : (metres e t <= 0)%Q) by (unfold metres, Qle; cbn; lia).
  assert (H1 : Qle_bool (metres e t) 1 = true) by (apply Qle_bool_iff; lra). rewrite H1 in H. cbn [negb] in H.
  assert (H2 : Qeq_bool (metres e t) 1 = false).
  { destruct (Qeq_bool (metres e t) 1) eqn:E; [|done]. apply Qeq_bool_iff in E. lra. }
  rewrite H2 in H. assert (H3 : Qle_bool (metres e t) 0 = true) by (apply Qle_bool_iff; lra). by rewrite H3 in H.
Qed.
Lemma check_options_Ok e ty be ts ss : check_options e ty be ts ss = Ok tt <->
  ty ∈ ["single_resolution"; "variable_resolution_tile"] /\ be ∈ ["numpy"; "zarr"] /\ is_power_of_two (metres e ts) = true /\
  (ty = "variable_resolution_tile" -> is_power_of_two (metres e ss) = true).
Proof.
  unfold check_options. case_bool_decide as H1; cbn [negb]; [|split; [done|tauto]]. case_bool_decide as H2; cbn [negb]; [|split; [done|tauto]].
  destruct (is_power_of_two (metres e ts)) eqn:H3; cbn [negb]; [|split; [done|intros (_ & _ & ? & _); done]].
  case_bool_decide as H4; cbn [andb].
  - destruct (is_power_of_two (metres e ss)) eqn:H5; cbn [negb]; [split; [|done]; intros _; tauto|split; [done|]]. intros (_ & _ & _ & H). by specialize (H H4).
  - split; [|done]. intros _. tauto.
Qed.
Lemma check_options_Raise e ty be ts ss x : check_options e ty be ts ss = Raise x -> x = ValueError.
Proof. unfold check_options. repeat case_match; congruence. Qed.

(** ** Saving and loading *)
Lemma load_sr_meta f g : load_sr f = Ok g -> fs_exists f [] = true /\ exists m, fs_read f [FMeta] = Some (LGridMeta m) /\ m_sub_is_tile (g_meta g) = m_sub_is_tile m.
Proof.
  unfold load_sr, load_grid. destruct (fs_exists f []); [|done]. cbn [negb]. destruct (fs_read f [FMeta]) as [[]|]; try done. intros H. split; [done|]. exists m. split; [done|].
  repeat (match type of H with rbind ?x _ = _ => destruct x; [cbn [rbind] in H|done] end). injection H as <-. done.
Qed.
Lemma load_vr_meta f g : load_vr f = Ok g -> fs_exists f [] = true /\ exists m, fs_read f [FMeta] = Some (LGridMeta m) /\ m_sub_is_tile (g_meta g) = m_sub_is_tile m.
Proof.
  unfold load_vr, load_grid. destruct (fs_exists f []); [|done]. cbn [negb]. destruct (fs_read f [FMeta]) as [[]|]; try done. intros H. split; [done|]. exists m. split; [done|].
  repeat (match type of H with rbind ?x _ = _ => destruct x; [cbn [rbind] in H|done] end). injection H as <-. done.
Qed.
Lemma load_from_root (F : fs) s cls : NoDup (dkeys F) -> s ∈ root_names -> class_of_root s = Ok cls ->
  (forall s', s' ∈ root_names -> s' <> s -> dget F [FFolder (NRoot s')] = None) -> fs_exists (fsub F (FFolder (NRoot s))) [] = true ->
  load_grid_from F =
    match fs_read (fsub F (FFolder (NRoot s))) [FMeta] with
    | Some (LGridMeta m) => if m_sub_is_tile m then let* g := load_sr (fsub F (FFolder (NRoot s))) in Ok (cls, SrObj g)
                            else let* g := load_vr (fsub F (FFolder (NRoot s))) in Ok (cls, VrObj g)
    | _ => Raise EnvironmentError end.
Proof.
  intros N Hs Hc Ho He. unfold load_grid_from. rewrite (pick_root_only _ s).
  - cbn [rbind]. rewrite Hc. cbn [rbind]. by rewrite He.
  - by apply root_entries_nodup.
  - apply root_entry_elem. rewrite exists_fsub in He. apply dget_is_Some. by apply dmem_true.
  - done.
  - intros s' H1 H2. apply root_entry_elem in H1. destruct (decide (s' = s)); [done|]. rewrite Ho in H1 by done. by destruct H1.
Qed.
Lemma sr_root_class zarr : exists s, sr_root_name zarr = NRoot s /\ s ∈ root_names /\ class_of_root s = Ok (if zarr then SRGridZarr else SRGrid).
Proof. unfold sr_root_name. eexists. split; [done|]. destruct zarr; (split; [apply (bool_decide_unpack _); exact I|reflexivity]). Qed.
Lemma vr_root_class zarr : exists s, vr_root_name zarr = NRoot s /\ s ∈ root_names /\ class_of_root s = Ok (if zarr then VRGridTileZarr else VRGridTile).
Proof. unfold vr_root_name. eexists. split; [done|]. destruct zarr; (split; [apply (bool_decide_unpack _); exact I|reflexivity]). Qed.

Section reload.
  Context (e : env) (size : Z) (b zarr disk : bool) (Hsize : 0 < size).
  Lemma sr_frame g ct : update_history sr_ops e known_args (create_sr size b zarr disk) g ct -> meta_frame (new_sr_meta 0 0 size b zarr) (g_meta g).
  Proof using Hsize. intros H. destruct (update_inv e known_args size b zarr disk Hsize (fun _ h => h) g ct H) as (_ & seen & ok & [[B _ _ _] _]). done. Qed.
  Lemma sr_container g ct (F : fs) : update_history sr_ops e known_args (create_sr size b zarr disk) g ct -> ct <> [] -> NoDup (dkeys F) ->
    (forall s, s ∈ root_names -> NRoot s <> m_name (g_meta g) -> dget F [FFolder (NRoot s)] = None) ->
    save_to_exn (SrObj g) = None /\
    exists g', load_grid_from (fs_run F (save_to (SrObj g))) = Ok (if zarr then SRGridZarr else SRGrid, SrObj g') /\
      g_geom g' = g_geom g /\ g_meta g' = g_meta g /\ same_tiles same_tile g g'.
  Proof using Hsize.
    intros H Hne N Ho. pose proof (sr_frame g ct H) as Fr. destruct (sr_root_class zarr) as (s & Es & Hs & Hc).
    assert (En : m_name (g_meta g) = NRoot s) by (rewrite (mf_name _ _ Fr); exact Es).
    destruct (update_save e known_args size b zarr disk Hsize (fun _ h => h) g ct (fsub F (FFolder (NRoot s))) H Hne) as (X & g' & L & A1 & A2 & A3).
    split; [exact X|]. exists g'. split; [|done]. unfold save_to. rewrite En in *.
    set (F1 := fs_run F _). assert (ES : fsub F1 (FFolder (NRoot s)) = fs_run (fsub F (FFolder (NRoot s))) (ev_of (save_sr_to g))) by apply run_in.
    destruct (load_sr_meta _ _ L) as (X1 & m & X2 & X3). rewrite (load_from_root F1 s (if zarr then SRGridZarr else SRGrid)).
    - rewrite ES, X2. rewrite <- X3, A2, (mf_sub_type _ _ Fr). cbn [new_sr_meta new_meta m_sub_is_tile]. by rewrite L.
    - by apply run_keys_nodup.
    - done.
    - done.
    - intros s' H1 H2. unfold F1. rewrite run_top by (cbn; congruence). apply Ho; congruence.
    - by rewrite ES.
  Qed.
End reload.

Section reload_vr.
  Context (e : env) (size sub : Z) (b zarr disk : bool) (Hsize : 0 < size) (Hsub : 0 < sub).
  Lemma vr_frame g ct : update_history vr_ops e known_args (create_vr size sub b zarr disk) g ct -> meta_frame (new_vr_meta 0 0 size sub b zarr) (g_meta g).
  Proof using Hsize Hsub. intros H. destruct (vr_update_inv e known_args size sub b zarr disk Hsize Hsub (fun _ h => h) g ct H) as (_ & seen & ok & [[B _ _ _] _]). done. Qed.
  Lemma clears_root (F : fs) s q l : Forall (fun p => exists x y, p = PRm [FFolder (NTile x y)]) l -> dget (fs_run F l) (FFolder (NRoot s) :: q) = dget F (FFolder (NRoot s) :: q).
  Proof.
    intros H. revert F. induction H as [|p l (x & y & ->) _ IH]; intros F; [done|]. cbn [fs_run foldl]. unfold fs_run in IH. rewrite IH. cbn [fs_step]. unfold fs_rm.
    rewrite dget_filter. by rewrite under_other.
  Qed.
  Lemma clears_sub (F : fs) s l : Forall (fun p => exists x y, p = PRm [FFolder (NTile x y)]) l -> fsub (fs_run F l) (FFolder (NRoot s)) = fsub F (FFolder (NRoot s)).
  Proof.
    intros H. revert F. induction H as [|p l (x & y & ->) _ IH]; intros F; [done|]. cbn [fs_run foldl]. unfold fs_run in IH. rewrite IH.
    change (PRm [FFolder (NTile x y)]) with (prim_in (FFolder (NTile x y)) (PRm [])). by apply step_out.
  Qed.
  Lemma vr_container g ct (F : fs) : update_history vr_ops e known_args (create_vr size sub b zarr disk) g ct -> ct <> [] -> NoDup (dkeys F) ->
    (forall s, s ∈ root_names -> NRoot s <> m_name (g_meta g) -> dget F [FFolder (NRoot s)] = None) ->
    (forall k x y, origin_at g k = Some (x, y) -> tile_at g k = None -> fs_exists F [FFolder (m_name (g_meta g)); FFolder (NTile x y)] = false) ->
    save_to_exn (VrObj g) = None /\
    exists g', load_grid_from (fs_run F (save_to (VrObj g))) = Ok (if zarr then VRGridTileZarr else VRGridTile, VrObj g') /\
      g_geom g' = g_geom g /\ g_meta g' = g_meta g /\ same_tiles same_sub g g'.
  Proof using Hsize Hsub.
    intros H Hne N Ho He. pose proof (vr_frame g ct H) as Fr. destruct (vr_root_class zarr) as (s & Es & Hs & Hc).
    assert (En : m_name (g_meta g) = NRoot s) by (rewrite (mf_name _ _ Fr); exact Es).
    destruct (vr_update_save e known_args size sub b zarr disk Hsize Hsub (fun _ h => h) g ct (fsub F (FFolder (NRoot s))) H Hne) as (X & g' & L & A1 & A2 & A3).
    { intros k x y H1 H2. rewrite exists_fsub, <- En. by eapply He. }
    split; [exact X|]. exists g'. split; [|done]. unfold save_to. rewrite En in *. rewrite run_app.
    set (cl := concat _). assert (Hcl : Forall (fun p => exists x y, p = PRm [FFolder (NTile x y)]) cl).
    { unfold cl. apply Forall_concat, Forall_forall. intros l [k Hk]%elem_of_list_lookup. rewrite list_lookup_imap in Hk.
      destruct (_ !! k) as [t|]; [|done]. injection Hk as <-. destruct t; [by constructor|]. destruct (origin_at g k) as [[x y]|]; [|by constructor].
      constructor; [eauto|constructor]. }
    set (F0 := fs_run F cl). set (F1 := fs_run F0 _).
    assert (ES : fsub F1 (FFolder (NRoot s)) = fs_run (fsub F (FFolder (NRoot s))) (ev_of (save_vr_to g))).
    { unfold F1. rewrite run_in. unfold F0. by rewrite clears_sub. }
    destruct (load_vr_meta _ _ L) as (X1 & m & X2 & X3). rewrite (load_from_root F1 s (if zarr then VRGridTileZarr else VRGridTile)).
    - rewrite ES, X2. rewrite <- X3, A2, (mf_sub_type _ _ Fr). cbn [new_vr_meta new_meta m_sub_is_tile]. by rewrite L.
    - by apply run_keys_nodup, run_keys_nodup.
    - done.
    - done.
    - intros s' H1 H2. unfold F1. rewrite run_top by (cbn; congruence). unfold F0. rewrite clears_root by done. apply Ho; congruence.
    - by rewrite ES.
  Qed.
End reload_vr.

(** ** create_grid *)
Definition made (ty be : string) (ts ss : Z) (b disk : bool) (cls : gclass) (o : gobj) : Prop :=
  (ty = "single_resolution" /\ exists z, o = SrObj (create_sr ts b z disk) /\ cls = (if z then SRGridZarr else SRGrid) /\ be = (if z then "zarr" else "numpy")) \/
  (ty = "variable_resolution_tile" /\ exists z, o = VrObj (create_vr ts ss b z disk) /\ cls = (if z then VRGridTileZarr else VRGridTile) /\ be = (if z then "zarr" else "numpy")).
Lemma create_grid_Ok e f folder st ty be ts ss b f1 cls o p : create_grid e f folder st ty be ts ss b = (f1, Ok (cls, o, p)) ->
  check_options e ty be ts ss = Ok tt /\ made ty be ts ss b (negb (bool_decide (p = ""))) cls o.
Proof.
  unfold create_grid, validate_create_options. destruct (if decide (folder = "") then _ else _) as [f2 r]. intros H. injection H as _ H.
  destruct r as [p'|]; [|done]. cbn [rbind] in H. destruct (check_options e ty be ts ss) as [[]|] eqn:E; [|done]. cbn [rbind] in H. split; [done|].
  apply check_options_Ok in E as (H1 & H2 & _). apply elem_of_list_In in H1. apply elem_of_list_In in H2. cbn in H1, H2.
  destruct H1 as [<-|[<-|[]]]; destruct H2 as [<-|[<-|[]]]; cbn in H; injection H as <- <- <-; [left|left|right|right];
    (split; [done|]); ((exists false; done) || (exists true; done)).
Qed.
Lemma create_grid_bad e f folder st ty be ts ss b : check_options e ty be ts ss <> Ok tt ->
  (folder = "" -> create_grid e f folder st ty be ts ss b = (f, Raise ValueError)) /\
  (forall f1 p, folder <> "" -> create_folder f (path_split folder).1 (path_split folder).2 st = (f1, Ok p) ->
     create_grid e f folder st ty be ts ss b = (f1, Raise ValueError)) /\
  exists x, (create_grid e f folder st ty be ts ss b).2 = Raise x.
Proof.
  intros H. destruct (check_options e ty be ts ss) as [[]|x] eqn:E; [done|]. pose proof (check_options_Raise _ _ _ _ _ _ E) as ->.
  unfold create_grid, validate_create_options. rewrite E. destruct (decide (folder = "")) as [->|Hf]; cbn [rbind].
  - split; [done|]. split; [done|]. by eexists.
  - split; [done|]. destruct (path_split folder) as [d n]. cbn [fst snd]. destruct (create_folder f d n st) as [f2 r]. split.
    + intros f1 p _ H1. injection H1 as -> ->. done.
    + destruct r as [p|y]; cbn; by eexists.
Qed.
Lemma create_grid_good e f folder st ty be ts ss b : check_options e ty be ts ss = Ok tt ->
  (folder = "" -> exists cls o, create_grid e f folder st ty be ts ss b = (f, Ok (cls, o, ""))) /\
  (forall f1 p, folder <> "" -> create_folder f (path_split folder).1 (path_split folder).2 st = (f1, Ok p) ->
     exists cls o, create_grid e f folder st ty be ts ss b = (f1, Ok (cls, o, p))) /\
  (forall f1 x, folder <> "" -> create_folder f (path_split folder).1 (path_split folder).2 st = (f1, Raise x) ->
     create_grid e f folder st ty be ts ss b = (f1, Raise x)).
Proof.
  intros E. unfold create_grid, validate_create_options. rewrite E.
  apply check_options_Ok in E as (H1 & H2 & _). apply elem_of_list_In in H1. apply elem_of_list_In in H2. cbn in H1, H2.
  destruct (decide (folder = "")) as [->|Hf]; cbn [rbind].
  - split; [|done]. intros _. destruct H1 as [<-|[<-|[]]]; destruct H2 as [<-|[<-|[]]]; cbn; by eexists _, _.
  - split; [done|]. destruct (path_split folder) as [d n]. cbn [fst snd]. destruct (create_folder f d n st) as [f2 r]. split.
    + intros f1 p _ H. injection H as -> ->. cbn [rbind]. destruct H1 as [<-|[<-|[]]]; destruct H2 as [<-|[<-|[]]]; cbn; by eexists _, _.
    + intros f1 x _ H. injection H as -> ->. done.
Qed.
