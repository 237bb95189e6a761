(** Saving and loading one tile. *)
From Verif Require Import Py Nd Numpy Point Bin Algorithms Tile Time Meta Disk Grid GridRun GridQuery GridOps Export Spec GridExec Store StoreExec
  PyFacts NumpyFacts FsFacts.
Open Scope Z_scope.

(** ** What the folder of a tile holds *)
Definition leaf_at (F : fs) (n : fname) (l : leaf) : Prop := dget F [n] = Some (File l).
(** The gridded part *)
Record grid_stored (F : fs) (t : tile) : Prop := {
  gs_layers : forall r name, dget F [FCells r name] = (fun a => File (LArr a)) <$> layer_of t r name;
  gs_ex : forall r, r ∈ dkeys (t_cells t) -> exists l, dget (t_edges_x t) r = Some l /\ leaf_at F (FEdgesX r) (LInts l);
  gs_ey : forall r, r ∈ dkeys (t_cells t) -> exists l, dget (t_edges_y t) r = Some l /\ leaf_at F (FEdgesY r) (LInts l);
  gs_some : forall r, r ∈ dkeys (t_cells t) -> exists name, name ∈ stored_layers /\ is_Some (layer_of t r name);
  gs_std : forall r name, is_Some (layer_of t r name) -> name ∈ stored_layers }.
Record tile_stored (F : fs) (t : tile) : Prop := {
  ts_dir : is_Some (dget F []);
  ts_meta : leaf_at F FMeta (LTileMeta (tile_meta t));
  ts_data : exists d, t_data t = Some d /\ leaf_at F FData (LPoints d);
  ts_grid : grid_stored F t;
  ts_idx : forall r, r ∈ dkeys (t_cells t) -> exists l, dget (t_indices t) r = Some l /\ leaf_at F (FIndices r) (LInts l) }.

(** ** Saving *)
Definition cell_writes (r : Z) (layers : dict string arr) (ex ey : option (list Z)) : list (fname * leaf) :=
  omap (fun n => (fun a => (FCells r n, LArr a)) <$> dget layers n) stored_layers ++
  match ex with Some l => [(FEdgesX r, LInts l)] | None => [] end ++ match ey with Some l => [(FEdgesY r, LInts l)] | None => [] end.
Lemma save_cells_arrays r layers ex ey : save_cells r layers ex ey = arrays (cell_writes r layers ex ey).
Proof.
  assert (HA : forall ns, concat (map (fun n => match dget layers n with Some a => save_array [FCells r n] (LArr a) | None => [] end) ns) =
    arrays (omap (fun n => (fun a => (FCells r n, LArr a)) <$> dget layers n) ns)).
  { induction ns as [|n ns IH]; [done|]. cbn [map concat omap list_omap]. rewrite IH. by destruct (dget layers n). }
  unfold save_cells, cell_writes, arrays. rewrite !map_app, !concat_app. f_equal; [exact (HA _)|]. by destruct ex, ey.
Qed.
Definition grid_writes (t : tile) (cs : dict Z (dict string arr)) : list (fname * leaf) :=
  concat (map (fun rl : Z * dict string arr => cell_writes rl.1 rl.2 (dget (t_edges_x t) rl.1) (dget (t_edges_y t) rl.1)) cs).
Definition idx_writes (ix : dict Z (list Z)) : list (fname * leaf) := map (fun ri : Z * list Z => (FIndices ri.1, LInts ri.2)) ix.
Lemma arrays_app a b : arrays (a ++ b) = arrays a ++ arrays b.
Proof. unfold arrays. by rewrite map_app, concat_app. Qed.
Lemma save_grid_arrays t cs : concat (map (fun rl : Z * dict string arr =>
       save_cells rl.1 rl.2 (dget (t_edges_x t) rl.1) (dget (t_edges_y t) rl.1)) cs) = arrays (grid_writes t cs).
Proof. unfold grid_writes. induction cs as [|[r l] cs IH]; [done|]. cbn [map concat fst snd]. by rewrite IH, save_cells_arrays, arrays_app. Qed.
Lemma save_idx_arrays ix : concat (map (fun ri : Z * list Z => save_array [FIndices ri.1] (LInts ri.2)) ix) = arrays (idx_writes ix).
Proof. unfold arrays, idx_writes. by rewrite map_map. Qed.

Definition rez_of (n : fname) : option Z := match n with FCells r _ | FEdgesX r | FEdgesY r => Some r | _ => None end.
Lemma cell_writes_rez r l ex ey n : n ∈ (cell_writes r l ex ey).*1 -> rez_of n = Some r.
Proof.
  unfold cell_writes. rewrite !fmap_app. intros [H|[H|H]%elem_of_app]%elem_of_app.
  - apply elem_of_list_fmap in H as (w & -> & H). apply elem_of_list_omap in H as (k & _ & H). destruct (dget l k); [|done]. by injection H as <-.
  - destruct ex; [|by apply not_elem_of_nil in H]. by apply elem_of_list_singleton in H as ->.
  - destruct ey; [|by apply not_elem_of_nil in H]. by apply elem_of_list_singleton in H as ->.
Qed.
Lemma stored_NoDup : NoDup stored_layers.
Proof. apply (bool_decide_unpack _). vm_compute. exact I. Qed.
Lemma omap_cells_NoDup r (layers : dict string arr) ns : NoDup ns -> NoDup (omap (fun n => (fun a => (FCells r n, LArr a)) <$> dget layers n) ns).*1.
Proof.
  induction ns as [|n ns IH]; [intros _; apply NoDup_nil_2|]. intros [H1 H2]%NoDup_cons. cbn [omap list_omap]. destruct (dget layers n); [|by apply IH].
  cbn. apply NoDup_cons. split; [|by apply IH]. intros H. apply elem_of_list_fmap in H as (w & Hw & H). apply elem_of_list_omap in H as (k & Hk & H).
  destruct (dget layers k); [|done]. injection H as <-. cbn in Hw. injection Hw as ->. done.
Qed.
Lemma cell_writes_NoDup r l ex ey : NoDup (cell_writes r l ex ey).*1.
Proof.
  unfold cell_writes. rewrite !fmap_app. apply NoDup_app. split; [apply omap_cells_NoDup, stored_NoDup|]. split.
  - intros n H. apply elem_of_list_fmap in H as (w & -> & H). apply elem_of_list_omap in H as (k & Hk & H). destruct (dget l k); [|done]. injection H as <-.
    intros Hn. destruct ex, ey; cbn in Hn; repeat (apply elem_of_cons in Hn as [Hn|Hn]; [done|]); by apply not_elem_of_nil in Hn.
  - destruct ex, ey; cbn; repeat (apply NoDup_cons; split); try apply NoDup_nil_2; try apply not_elem_of_nil.
    intros Hn%elem_of_list_singleton. done.
Qed.
Lemma grid_writes_rez t cs n : n ∈ (grid_writes t cs).*1 -> exists r, rez_of n = Some r /\ r ∈ dkeys cs.
Proof.
  unfold grid_writes. induction cs as [|[r l] cs IH]; intros H; [by apply not_elem_of_nil in H|]. cbn [map concat] in H. rewrite fmap_app in H.
  apply elem_of_app in H as [H|H].
  - exists r. split; [by eapply cell_writes_rez|left].
  - destruct (IH H) as (r' & H1 & H2). exists r'. split; [done|by right].
Qed.
Lemma grid_writes_NoDup t cs : NoDup (dkeys cs) -> NoDup (grid_writes t cs).*1.
Proof.
  unfold grid_writes. induction cs as [|[r l] cs IH]; [intros _; apply NoDup_nil_2|]. intros [H1 H2]%NoDup_cons. cbn [map concat]. rewrite fmap_app.
  apply NoDup_app. split; [apply cell_writes_NoDup|]. split; [|by apply IH]. intros n Hn Hn2. apply cell_writes_rez in Hn.
  destruct (grid_writes_rez t cs n Hn2) as (r' & H3 & H4). cbn [fst] in Hn. rewrite Hn in H3. injection H3 as <-. done.
Qed.
Lemma dget_none_keys {K V} `{EqDecision K} (d : dict K V) k : k ∉ d.*1 -> dget d k = None.
Proof. intros H. apply eq_None_not_Some. intros Hs%dget_is_Some. done. Qed.
Lemma grid_writes_get t cs n : NoDup (dkeys cs) ->
  dget (grid_writes t cs) n = match rez_of n with
    | Some r => match dget cs r with Some l => dget (cell_writes r l (dget (t_edges_x t) r) (dget (t_edges_y t) r)) n | None => None end
    | None => None end.
Proof.
  intros Hn. destruct (rez_of n) as [r|] eqn:E.
  2: { apply dget_none_keys. intros H. apply grid_writes_rez in H as (r & H & _). congruence. }
  unfold grid_writes. induction cs as [|[r' l] cs IH]; [done|]. apply NoDup_cons in Hn as [H1 H2]. cbn [map concat fst snd dget]. rewrite dget_app.
  destruct (decide (r = r')) as [->|Hr].
  - destruct (dget (cell_writes r' l _ _) n) eqn:E2; [done|]. apply dget_none_keys. intros H. apply (grid_writes_rez t) in H as (r & H3 & H4). rewrite E in H3. injection H3 as <-. by destruct H1.
  - assert (HN : dget (cell_writes r' l (dget (t_edges_x t) r') (dget (t_edges_y t) r')) n = None).
    { apply dget_none_keys. intros H. apply cell_writes_rez in H. congruence. }
    rewrite HN. by apply IH.
Qed.
Lemma omap_cells_get r (l : dict string arr) name ns : dget (omap (fun n => (fun a => (FCells r n, LArr a)) <$> dget l n) ns) (FCells r name) =
  if decide (name ∈ ns) then LArr <$> dget l name else None.
Proof.
  induction ns as [|n ns IH]; [by rewrite decide_False by apply not_elem_of_nil|]. cbn [omap list_omap]. destruct (decide (name = n)) as [->|Hn].
  - rewrite decide_True by left. destruct (dget l n) eqn:E; cbn; [by rewrite decide_True|]. rewrite IH. by destruct (decide _); rewrite ?E.
  - assert (HE : forall X, (if decide (name ∈ n :: ns) then X else @None leaf) = if decide (name ∈ ns) then X else None).
    { intros X. destruct (decide (name ∈ ns)) as [H|H]; [by rewrite decide_True by (by right)|rewrite decide_False; [done|]].
      intros [?|?]%elem_of_cons; done. }
    rewrite HE. destruct (dget l n); cbn; [|done]. rewrite decide_False by congruence. done.
Qed.
Lemma cell_writes_get r l ex ey name : dget (cell_writes r l ex ey) (FCells r name) = if decide (name ∈ stored_layers) then LArr <$> dget l name else None.
Proof.
  unfold cell_writes. rewrite dget_app, omap_cells_get.
  assert (HN : dget (match ex with Some l => [(FEdgesX r, LInts l)] | None => [] end ++ match ey with Some l => [(FEdgesY r, LInts l)] | None => [] end) (FCells r name) = None).
  { by destruct ex, ey. }
  rewrite HN. by destruct (decide _), (dget l name).
Qed.
Lemma omap_cells_none r (l : dict string arr) n ns : (forall name, n <> FCells r name) -> dget (omap (fun n => (fun a => (FCells r n, LArr a)) <$> dget l n) ns) n = None.
Proof.
  intros H. apply dget_none_keys. intros Hn. apply elem_of_list_fmap in Hn as (w & -> & Hw). apply elem_of_list_omap in Hw as (k & _ & Hk).
  destruct (dget l k); [|done]. injection Hk as <-. by destruct (H k).
Qed.
Lemma cell_writes_ex r l ex ey : dget (cell_writes r l ex ey) (FEdgesX r) = LInts <$> ex.
Proof. unfold cell_writes. rewrite dget_app, omap_cells_none by done. destruct ex, ey; cbn [app dget]; repeat first [rewrite decide_True by done|rewrite decide_False by done]; done. Qed.
Lemma cell_writes_ey r l ex ey : dget (cell_writes r l ex ey) (FEdgesY r) = LInts <$> ey.
Proof. unfold cell_writes. rewrite dget_app, omap_cells_none by done. destruct ex, ey; cbn [app dget]; repeat first [rewrite decide_True by done|rewrite decide_False by done]; done. Qed.
Lemma idx_writes_NoDup ix : NoDup (dkeys ix) -> NoDup (idx_writes ix).*1.
Proof.
  unfold idx_writes. induction ix as [|[r l] ix IH]; [intros _; apply NoDup_nil_2|]. intros [H1 H2]%NoDup_cons. cbn. apply NoDup_cons. split; [|by apply IH].
  intros H. apply elem_of_list_fmap in H as (w & Hw & H). apply elem_of_list_fmap in H as ([r' l'] & -> & H). cbn in Hw. injection Hw as ->.
  apply H1. apply elem_of_list_fmap. by exists (r', l').
Qed.
Lemma idx_writes_get ix n : dget (idx_writes ix) n = match n with FIndices r => LInts <$> dget ix r | _ => None end.
Proof.
  unfold idx_writes. induction ix as [|[r l] ix IH]; [by destruct n|]. cbn [map dget fst snd]. rewrite IH. destruct n as [| | | | | | |r']; try done.
  destruct (decide (r' = r)) as [->|]; [by rewrite decide_True|]. rewrite decide_False by congruence. done.
Qed.

Lemma rm_cells_get F n : dget (fs_step F (PRmCells [])) [n] = if is_cell_entry n then None else dget F [n].
Proof. cbn. rewrite (dget_filter (under_cell [])). unfold under_cell. destruct (decide _) as [|H]; [done|]. destruct H. apply prefix_nil. Qed.
(** The folder after saving. *)
Lemma run_save_meta F t m : exists F1, fs_run F (save_tile (Some t) m) = fs_run F1 (save_tile_data t m) /\
  is_Some (dget F1 []) /\ leaf_at F1 FMeta (LTileMeta (tile_meta t)) /\ forall n, n <> FMeta -> dget F1 [n] = dget F [n].
Proof.
  exists (fs_run F [PMkdir []; PWrite [FMeta] (LTileMeta (tile_meta t))]). split; [done|]. unfold fs_run, leaf_at. cbn [foldl fs_step]. split; [|split].
  - rewrite dget_dset_ne by done. unfold fs_exists. rewrite dmem_dget. case_bool_decide as E; [done|]. rewrite dget_dset_eq. done.
  - by rewrite dget_dset_eq.
  - intros n Hn. rewrite dget_dset_ne by congruence. destruct (fs_exists F []); [done|]. by rewrite dget_dset_ne.
Qed.
Lemma arrays_none ws F n : NoDup ws.*1 -> dget ws n = None -> dget (fs_run F (arrays ws)) [n] = dget F [n].
Proof. intros H E. rewrite arrays_run by done. by rewrite E. Qed.
Lemma arrays_dir ws F : dget (fs_run F (arrays ws)) [] = dget F [].
Proof. apply arrays_top. intros n _. unfold under. apply bool_decide_eq_false. intros [k Hk]. done. Qed.

Definition data_part (t : tile) (m : save_mode) : list prim := if saves_points m then arrays [(FData, LPoints (default [] (t_data t)))] else [].
Definition grid_part (t : tile) (m : save_mode) : list prim := if saves_grid m then PRmCells [] :: arrays (grid_writes t (t_cells t)) else [].
Lemma save_tile_data_parts t m : save_tile_data t m = data_part t m ++ grid_part t m ++ arrays (idx_writes (t_indices t)).
Proof. unfold save_tile_data, data_part, grid_part. rewrite save_grid_arrays, save_idx_arrays. destruct (saves_points m), (saves_grid m); cbn; rewrite ?app_nil_r; done. Qed.
Lemma data_part_get F t m n : dget (fs_run F (data_part t m)) [n] =
  if bool_decide (n = FData) && saves_points m then Some (File (LPoints (default [] (t_data t)))) else dget F [n].
Proof.
  unfold data_part. destruct (saves_points m); [|by rewrite andb_false_r]. rewrite arrays_run by apply NoDup_singleton. cbn [dget]. rewrite andb_true_r.
  destruct (decide (n = FData)); [by rewrite bool_decide_eq_true_2|by rewrite bool_decide_eq_false_2].
Qed.
Lemma data_part_dir F t m : dget (fs_run F (data_part t m)) [] = dget F [].
Proof. unfold data_part. destruct (saves_points m); [apply arrays_dir|done]. Qed.
Lemma grid_part_get F t m n : NoDup (dkeys (t_cells t)) -> dget (fs_run F (grid_part t m)) [n] =
  if saves_grid m then match dget (grid_writes t (t_cells t)) n with Some l => Some (File l) | None => if is_cell_entry n then None else dget F [n] end else dget F [n].
Proof.
  intros H. unfold grid_part. destruct (saves_grid m); [|done].
  change (fs_run F (PRmCells [] :: arrays (grid_writes t (t_cells t)))) with (fs_run (fs_step F (PRmCells [])) (arrays (grid_writes t (t_cells t)))).
  rewrite arrays_run by (by apply grid_writes_NoDup). by rewrite rm_cells_get.
Qed.
Lemma grid_part_dir F t m : dget (fs_run F (grid_part t m)) [] = dget F [].
Proof.
  unfold grid_part. destruct (saves_grid m); [|done].
  change (fs_run F (PRmCells [] :: arrays (grid_writes t (t_cells t)))) with (fs_run (fs_step F (PRmCells [])) (arrays (grid_writes t (t_cells t)))).
  rewrite arrays_dir. cbn. rewrite (dget_filter (under_cell [])). unfold under_cell. by destruct (decide _).
Qed.
(** One entry after saving a tile. *)
Lemma saved_get F t m n : NoDup (dkeys (t_cells t)) -> NoDup (dkeys (t_indices t)) ->
  dget (fs_run F (save_tile (Some t) m)) [n] =
  match n with
  | FMeta => Some (File (LTileMeta (tile_meta t)))
  | FData => if saves_points m then Some (File (LPoints (default [] (t_data t)))) else dget F [n]
  | FIndices r => match dget (t_indices t) r with Some l => Some (File (LInts l)) | None => if saves_grid m then None else dget F [n] end
  | FCells r _ | FEdgesX r | FEdgesY r => if saves_grid m then File <$> dget (grid_writes t (t_cells t)) n else dget F [n]
  | _ => dget F [n]
  end.
Proof.
  intros H1 H2. destruct (run_save_meta F t m) as (F1 & -> & HD & HM & HO). rewrite save_tile_data_parts, !run_app.
  rewrite arrays_run by (by apply idx_writes_NoDup). rewrite idx_writes_get, grid_part_get by done. rewrite data_part_get.
  assert (HF : n <> FMeta -> dget F1 [n] = dget F [n]) by apply HO.
  destruct n as [nm| |key| |r l|r|r|r].
  - rewrite HF by done. rewrite bool_decide_eq_false_2 by done. cbn. rewrite grid_writes_get by done. cbn. by destruct (saves_grid m).
  - rewrite bool_decide_eq_false_2 by done. cbn. rewrite grid_writes_get by done. cbn. unfold leaf_at in HM. rewrite HM. by destruct (saves_grid m).
  - rewrite HF by done. rewrite bool_decide_eq_false_2 by done. cbn. rewrite grid_writes_get by done. cbn. by destruct (saves_grid m).
  - rewrite HF by done. rewrite bool_decide_eq_true_2 by done. cbn. rewrite grid_writes_get by done. cbn. by destruct (saves_grid m), (saves_points m).
  - rewrite HF by done. rewrite bool_decide_eq_false_2 by done. cbn. destruct (saves_grid m); [|done]. by destruct (dget (grid_writes _ _) _).
  - rewrite HF by done. rewrite bool_decide_eq_false_2 by done. cbn. destruct (saves_grid m); [|done]. by destruct (dget (grid_writes _ _) _).
  - rewrite HF by done. rewrite bool_decide_eq_false_2 by done. cbn. destruct (saves_grid m); [|done]. by destruct (dget (grid_writes _ _) _).
  - rewrite HF by done. rewrite bool_decide_eq_false_2 by done. cbn. rewrite grid_writes_get by done. cbn. destruct (dget (t_indices t) r); [done|]. by destruct (saves_grid m).
Qed.
Lemma saved_dir F t m : is_Some (dget (fs_run F (save_tile (Some t) m)) []).
Proof.
  destruct (run_save_meta F t m) as (F1 & -> & HD & HM & HO). rewrite save_tile_data_parts, !run_app. rewrite arrays_dir, grid_part_dir, data_part_dir. done.
Qed.
(** [F] holds the part of the tile that is not saved. *)
Definition rest_stored (F : fs) (t : tile) (m : save_mode) : Prop :=
  (saves_points m = false -> exists d, t_data t = Some d /\ leaf_at F FData (LPoints d)) /\
  (saves_grid m = false -> grid_stored F t).
Lemma layer_of_None t r name : r ∉ dkeys (t_cells t) -> layer_of t r name = None.
Proof. intros H. unfold layer_of. by rewrite (dget_none_keys (t_cells t) r). Qed.
Lemma plain_stored_name t r name : plain_tile t -> is_Some (layer_of t r name) -> name ∈ stored_layers.
Proof. intros H. exact (pt_layers _ H r name). Qed.
Lemma saved_stored F t m : plain_tile t -> rest_stored F t m -> tile_stored (fs_run F (save_tile (Some t) m)) t.
Proof.
  intros HP [R1 R2]. pose proof (pt_cells _ HP) as N1. pose proof (pt_indices _ HP) as N2. split.
  - apply saved_dir.
  - unfold leaf_at. by rewrite saved_get.
  - destruct (saves_points m) eqn:E.
    + destruct (pt_data _ HP) as [d Hd]. exists d. split; [done|]. unfold leaf_at. rewrite saved_get by done. by rewrite E, Hd.
    + destruct (R1 eq_refl) as (d & Hd & HF). exists d. split; [done|]. unfold leaf_at. rewrite saved_get by done. by rewrite E.
  - destruct (saves_grid m) eqn:E.
    + split.
      * intros r name. rewrite saved_get, E, grid_writes_get by done. cbn [rez_of]. unfold layer_of at 1. destruct (dget (t_cells t) r) as [l|] eqn:El; [|done].
        rewrite cell_writes_get. destruct (decide (name ∈ stored_layers)) as [|Hn]; [by destruct (dget l name)|].
        destruct (dget l name) eqn:En; [|done]. destruct Hn. apply (plain_stored_name t r); [done|]. unfold layer_of. by rewrite El, En.
      * intros r Hr. destruct (pt_gridded _ HP r Hr) as ([ex Hex] & _). exists ex. split; [done|]. unfold leaf_at. rewrite saved_get, E, grid_writes_get by done. cbn [rez_of].
        apply dget_is_Some in Hr as [l Hl]. rewrite Hl, cell_writes_ex, Hex. done.
      * intros r Hr. destruct (pt_gridded _ HP r Hr) as (_ & [ex Hex] & _). exists ex. split; [done|]. unfold leaf_at. rewrite saved_get, E, grid_writes_get by done. cbn [rez_of].
        apply dget_is_Some in Hr as [l Hl]. rewrite Hl, cell_writes_ey, Hex. done.
      * intros r Hr. destruct (pt_gridded _ HP r Hr) as (_ & _ & _ & name & Hn). exists name. split; [by eapply plain_stored_name|done].
      * intros r name. by apply plain_stored_name.
    + destruct (R2 eq_refl) as [G1 G2 G3 G4 G5]. split.
      * intros r name. by rewrite saved_get, E.
      * intros r Hr. destruct (G2 r Hr) as (l & H1 & H2). exists l. split; [done|]. unfold leaf_at in *. by rewrite saved_get, E.
      * intros r Hr. destruct (G3 r Hr) as (l & H1 & H2). exists l. split; [done|]. unfold leaf_at in *. by rewrite saved_get, E.
      * done.
      * done.
  - intros r Hr. destruct (pt_gridded _ HP r Hr) as (_ & _ & [ix Hix] & _). exists ix. split; [done|]. unfold leaf_at. rewrite saved_get by done. by rewrite Hix.
Qed.

(** ** Loading *)
Lemma read_leaf F n l : leaf_at F n l -> fs_read F [n] = Some l.
Proof. unfold leaf_at, fs_read. by intros ->. Qed.
Lemma read_ints_leaf F n l : leaf_at F n (LInts l) -> read_ints F [n] = Ok l.
Proof. intros H. unfold read_ints. by rewrite (read_leaf _ _ _ H). Qed.
Lemma load_layers_ok F r (A : string -> option arr) : (forall name, dget F [FCells r name] = (fun a => File (LArr a)) <$> A name) ->
  exists l, load_layers F [] r = Ok l /\ forall name, dget l name = if decide (name ∈ stored_layers) then A name else None.
Proof.
  intros H. unfold load_layers. cbn [app].
  assert (HL : forall ns l0, exists l, foldl (fun acc n => let* l := acc in if fs_exists F [FCells r n] then let* a := read_arr F [FCells r n] in Ok (dset l n a) else Ok l) (Ok l0) ns = Ok l /\
    forall name, dget l name = if decide (name ∈ ns) then match A name with Some a => Some a | None => dget l0 name end else dget l0 name).
  { induction ns as [|n ns IH]; intros l0; [exists l0; split; [done|]; intros name; by rewrite decide_False by apply not_elem_of_nil|]. cbn [foldl rbind].
    unfold fs_exists, read_arr, fs_read. rewrite dmem_dget, (H n). destruct (A n) as [a|] eqn:E; cbn [fmap option_fmap option_map rbind].
    - rewrite bool_decide_eq_true_2 by done. destruct (IH (dset l0 n a)) as (l & H1 & H2). exists l. split; [exact H1|]. intros name. rewrite H2, dget_dset.
      destruct (decide (name = n)) as [->|Hn]; [rewrite (decide_True (P := n ∈ n :: ns)) by left; rewrite E; by destruct (decide _)|].
      destruct (decide (name ∈ ns)); [by rewrite decide_True by (by right)|]. rewrite decide_False; [done|]. by intros [?|?]%elem_of_cons.
    - rewrite bool_decide_eq_false_2 by (by intros [? ?]). destruct (IH l0) as (l & H1 & H2). exists l. split; [exact H1|]. intros name. rewrite H2.
      destruct (decide (name = n)) as [->|Hn]; [rewrite (decide_True (P := n ∈ n :: ns)) by left; rewrite E; by destruct (decide _)|].
      destruct (decide (name ∈ ns)); [by rewrite decide_True by (by right)|]. rewrite decide_False; [done|]. by intros [?|?]%elem_of_cons. }
  destruct (HL stored_layers []) as (l & H1 & H2). exists l. split; [exact H1|]. intros name. rewrite H2. destruct (decide _); [|done]. by destruct (A name).
Qed.
Lemma listed_iff F r : r ∈ listed_rezs (fs_listdir F []) <-> exists name, is_Some (dget F [FCells r name]).
Proof.
  unfold listed_rezs. rewrite elem_of_np_unique, elem_of_list_omap. unfold fs_listdir. split.
  - intros (n & H1 & H2). apply elem_of_list_omap in H1 as (q & Hq & Hc). exists (match n with FCells _ l => l | _ => "" end).
    apply dget_is_Some. destruct n; try done. injection H2 as ->. unfold child_of in Hc. destruct (reverse q) as [|m rp] eqn:E; [done|]. case_bool_decide as Hb; [|done].
    injection Hc as ->. apply (f_equal reverse) in E. rewrite reverse_involutive, reverse_cons, Hb in E. by rewrite E in Hq.
  - intros (name & H%dget_is_Some). exists (FCells r name). split; [|done]. apply elem_of_list_omap. exists [FCells r name]. split; [done|].
    unfold child_of. cbn. by rewrite bool_decide_eq_true_2.
Qed.
(** The loops over the resolutions *)
Lemma load_cells_ok F t0 rs (L : Z -> dict string arr) (EX EY : Z -> list Z) :
  (forall r, r ∈ rs -> load_layers F [] r = Ok (L r) /\ leaf_at F (FEdgesX r) (LInts (EX r)) /\ leaf_at F (FEdgesY r) (LInts (EY r))) ->
  foldl (fun acc r =>
                       let* t := acc in
                       let* l := load_layers F [] r in
                       let* ex := read_ints F ([] ++ [FEdgesX r]) in
                       let* ey := read_ints F ([] ++ [FEdgesY r]) in
                       Ok (t <| t_cells := dset (t_cells t) r l |> <| t_edges_x := dset (t_edges_x t) r ex |>
                             <| t_edges_y := dset (t_edges_y t) r ey |>)) (Ok t0) rs =
  Ok (t0 <| t_cells := foldl (fun d r => dset d r (L r)) (t_cells t0) rs |>
         <| t_edges_x := foldl (fun d r => dset d r (EX r)) (t_edges_x t0) rs |>
         <| t_edges_y := foldl (fun d r => dset d r (EY r)) (t_edges_y t0) rs |>).
Proof.
  revert t0. induction rs as [|r rs IH]; intros t0 H; [by destruct t0|]. cbn [foldl]. destruct (H r) as (H1 & H2 & H3); [left|].
  cbn [rbind app]. rewrite H1. cbn [rbind]. rewrite (read_ints_leaf _ _ _ H2), (read_ints_leaf _ _ _ H3). cbn [rbind].
  cbn [app] in IH. rewrite IH by (intros r' Hr'; apply H; by right). done.
Qed.
Lemma load_idx_ok F t0 rs (I : Z -> list Z) : (forall r, r ∈ rs -> leaf_at F (FIndices r) (LInts (I r))) ->
  foldl (fun acc r => let* t := acc in let* idx := read_ints F ([] ++ [FIndices r]) in Ok (t <| t_indices := dset (t_indices t) r idx |>)) (Ok t0) rs =
  Ok (t0 <| t_indices := foldl (fun d r => dset d r (I r)) (t_indices t0) rs |>).
Proof.
  revert t0. induction rs as [|r rs IH]; intros t0 H; [by destruct t0|]. cbn [foldl]. pose proof (H r (elem_of_list_here _ _)) as H1.
  cbn [rbind app]. rewrite (read_ints_leaf _ _ _ H1). cbn [rbind]. cbn [app] in IH. rewrite IH by (intros r' Hr'; apply H; by right). done.
Qed.
Lemma foldl_dset_get {V} (f : Z -> V) rs d r : dget (foldl (fun d r => dset d r (f r)) d rs) r = if decide (r ∈ rs) then Some (f r) else dget d r.
Proof.
  revert d. induction rs as [|r' rs IH]; intros d; [by rewrite decide_False by apply not_elem_of_nil|]. cbn [foldl]. rewrite IH, dget_dset.
  destruct (decide (r = r')) as [->|Hr]; [rewrite (decide_True (P := r' ∈ r' :: rs)) by left; by destruct (decide _)|].
  destruct (decide (r ∈ rs)); [by rewrite decide_True by (by right)|]. rewrite decide_False; [done|]. by intros [?|?]%elem_of_cons.
Qed.
Lemma loaded_fields F t m old : tile_stored F t -> exists (L : Z -> dict string arr) (EX EY I : Z -> list Z) d,
  let rs := listed_rezs (fs_listdir F []) in let t0 := default (new_tile 0 0 0 false) old in
  t_data t = Some d /\ (forall r, r ∈ rs <-> r ∈ dkeys (t_cells t)) /\
  (forall r name, r ∈ rs -> load_layers F [] r = Ok (L r) /\ dget (L r) name = layer_of t r name) /\
  (forall r, r ∈ rs -> dget (t_edges_x t) r = Some (EX r) /\ dget (t_edges_y t) r = Some (EY r) /\ dget (t_indices t) r = Some (I r)) /\
  load_tile F [] old m = Ok (Some (mkTile (t_min_x t) (t_min_y t) (t_size t) (t_backscatter t) (if saves_points m then Some d else t_data t0) (t_container t)
    (if saves_grid m then foldl (fun d r => dset d r (L r)) (t_cells t0) rs else t_cells t0)
    (if saves_grid m then foldl (fun d r => dset d r (EX r)) (t_edges_x t0) rs else t_edges_x t0)
    (if saves_grid m then foldl (fun d r => dset d r (EY r)) (t_edges_y t0) rs else t_edges_y t0)
    (foldl (fun d r => dset d r (I r)) (t_indices t0) rs) (t_algorithm t) (t_params t) (t_changed t))).
Proof.
  intros [S1 S2 S3 [G1 G2 G3 G4 G5] S5]. destruct S3 as (d & Hd & HF).
  assert (HL : forall r, exists l, load_layers F [] r = Ok l /\ forall name, dget l name = if decide (name ∈ stored_layers) then layer_of t r name else None).
  { intros r. apply load_layers_ok. intros name. apply G1. }
  set (rs := listed_rezs (fs_listdir F [])).
  assert (Hrs : forall r, r ∈ rs <-> r ∈ dkeys (t_cells t)).
  { intros r. unfold rs. rewrite listed_iff. split.
    - intros (name & H). rewrite G1 in H. destruct (layer_of t r name) eqn:E; [|by destruct H]. apply dget_is_Some. unfold layer_of in E. by destruct (dget (t_cells t) r).
    - intros H. destruct (G4 r H) as (name & _ & [a Ha]). exists name. by rewrite G1, Ha. }
  exists (fun r => match load_layers F [] r with Ok l => l | Raise _ => [] end), (fun r => default [] (dget (t_edges_x t) r)), (fun r => default [] (dget (t_edges_y t) r)),
    (fun r => default [] (dget (t_indices t) r)), d. cbv zeta. split; [done|]. split; [done|]. split; [|split].
  - intros r name Hr. destruct (HL r) as (l & -> & Hl). split; [done|]. rewrite Hl. destruct (decide _) as [|Hn]; [done|]. destruct (layer_of t r name) eqn:E; [|done].
    destruct Hn. apply (G5 r). by rewrite E.
  - intros r Hr%Hrs. destruct (G2 r Hr) as (? & -> & _), (G3 r Hr) as (? & -> & _), (S5 r Hr) as (? & -> & _). done.
  - unfold load_tile. unfold fs_exists. rewrite dmem_dget, bool_decide_eq_true_2 by done. cbn [app]. rewrite (read_leaf _ _ _ S2). fold rs. cbv zeta.
    assert (HD : read_points F [FData] = Ok d) by (unfold read_points; by rewrite (read_leaf _ _ _ HF)). rewrite HD. cbn [rbind].
    destruct (saves_points m); cbn [rbind]; (destruct (saves_grid m); [rewrite (load_cells_ok F _ rs (fun r => match load_layers F [] r with Ok l => l | Raise _ => [] end)
      (fun r => default [] (dget (t_edges_x t) r)) (fun r => default [] (dget (t_edges_y t) r)))|]); cbn [rbind];
     try (rewrite (load_idx_ok F _ rs (fun r => default [] (dget (t_indices t) r))); [done|intros r Hr%Hrs; destruct (S5 r Hr) as (? & -> & ?); done]);
     (intros r Hr%Hrs; destruct (HL r) as (l & -> & _), (G2 r Hr) as (? & -> & ?), (G3 r Hr) as (? & -> & ?); done).
Qed.
Lemma load_stored F t : tile_stored F t -> exists t', load_sr_tile F = Ok (Some t') /\ same_tile t t'.
Proof.
  intros H. destruct (loaded_fields F t SaveAll None H) as (L & EX & EY & I & d & Hd & Hrs & HL & HE & HT). unfold load_sr_tile. rewrite HT. eexists. split; [done|].
  cbn [saves_points saves_grid] in *. cbn [from_option default id] in *.
  assert (HK : forall r V (f : Z -> V), dget (foldl (fun d r => dset d r (f r)) [] (listed_rezs (fs_listdir F []))) r = if decide (r ∈ listed_rezs (fs_listdir F [])) then Some (f r) else None).
  { intros r V f. by rewrite foldl_dset_get. }
  split; cbn [t_min_x t_min_y t_size t_backscatter t_data t_container t_algorithm t_params t_changed t_cells t_edges_x t_edges_y t_indices new_tile]; try done.
  - intros r. rewrite <- !dget_is_Some, HK. rewrite dget_is_Some, <- Hrs. destruct (decide _); [done|]. split; [by intros [? ?]|done].
  - intros r name. unfold layer_of at 1. cbn [t_cells]. rewrite HK. destruct (decide _) as [Hr|Hr]; [by destruct (HL r name Hr)|]. by rewrite layer_of_None by (by rewrite <- Hrs).
  - intros r Hr%Hrs. rewrite HK, decide_True by done. by destruct (HE r Hr) as (-> & _).
  - intros r Hr%Hrs. rewrite HK, decide_True by done. by destruct (HE r Hr) as (_ & -> & _).
  - intros r Hr%Hrs. rewrite HK, decide_True by done. by destruct (HE r Hr) as (_ & _ & ->).
Qed.
Lemma load_no_folder F : dget F [] = None -> load_sr_tile F = Ok None.
Proof. intros H. unfold load_sr_tile, load_tile, fs_exists. by rewrite dmem_dget, H. Qed.

(** ** Reading a tile back into memory *)
Lemma dset_id {K V} `{EqDecision K} (d : dict K V) k v : dget d k = Some v -> dset d k v = d.
Proof.
  induction d as [|[k' v'] d IH]; [done|]. cbn [dget dset]. destruct (decide (k = k')) as [->|]; [by intros [= ->]|]. intros H. by rewrite IH.
Qed.
Lemma foldl_dset_id {V} (f : Z -> V) rs d : (forall r, r ∈ rs -> dget d r = Some (f r)) -> foldl (fun d r => dset d r (f r)) d rs = d.
Proof.
  induction rs as [|r rs IH]; intros H; [done|]. cbn [foldl]. rewrite dset_id by (apply H; left). apply IH. intros r' Hr'. apply H. by right.
Qed.
Lemma dset_map {V} (d : dict Z V) k v : NoDup (dkeys d) -> k ∈ dkeys d -> dset d k v = dmapkv (fun k' v' => if decide (k' = k) then v else v') d.
Proof.
  induction d as [|[k' v'] d IH]; intros Hn Hk; [by apply not_elem_of_nil in Hk|]. apply NoDup_cons in Hn as [H1 H2]. cbn [dset]. unfold dmapkv in *. cbn [map fst snd].
  destruct (decide (k = k')) as [->|Hne].
  - rewrite decide_True by done. f_equal. symmetry. rewrite <- (map_id d) at 2. apply map_ext_in. intros [k2 v2] Hin%elem_of_list_In. cbn.
    rewrite decide_False; [done|]. intros ->. apply H1. apply elem_of_list_fmap. by exists (k', v2).
  - rewrite decide_False by congruence. f_equal. apply IH; [done|]. apply elem_of_cons in Hk as [?|?]; [done|done].
Qed.
Lemma foldl_dset_map {V} (f : Z -> V) rs : forall d, NoDup (dkeys d) -> (forall r, r ∈ rs -> r ∈ dkeys d) ->
  foldl (fun d r => dset d r (f r)) d rs = dmapkv (fun k v => if decide (k ∈ rs) then f k else v) d.
Proof.
  induction rs as [|r rs IH]; intros d Hn H; cbn [foldl].
  - unfold dmapkv. rewrite <- (map_id d) at 1. apply map_ext. intros [k v]. cbn. by rewrite decide_False by apply not_elem_of_nil.
  - rewrite dset_map by (first [done|apply H; left]). rewrite IH by (rewrite dkeys_dmapkv; first [done|intros r' Hr'; apply H; by right]).
    unfold dmapkv. rewrite map_map. apply map_ext. intros [k v]. cbn. f_equal. destruct (decide (k = r)) as [->|Hr].
    + rewrite (decide_True (P := r ∈ r :: rs)) by left. by destruct (decide _).
    + destruct (decide (k ∈ rs)); [by rewrite decide_True by (by right)|]. rewrite decide_False; [done|]. by intros [?|?]%elem_of_cons.
Qed.
Lemma load_layers_eq F r (A : dict string arr) : (forall name, dget F [FCells r name] = (fun a => File (LArr a)) <$> dget A name) ->
  load_layers F [] r = Ok (stored_part A).
Proof.
  intros H. unfold load_layers, stored_part. cbn [app].
  assert (HL : forall ns l0, NoDup ns -> (forall n, n ∈ ns -> n ∉ dkeys l0) -> foldl (fun acc n => let* l := acc in if fs_exists F [FCells r n] then let* a := read_arr F [FCells r n] in Ok (dset l n a) else Ok l) (Ok l0) ns =
    Ok (l0 ++ omap (fun n => match dget A n with Some a => Some (n, a) | None => None end) ns)).
  { induction ns as [|n ns IH]; intros l0 Hn Hl; [by rewrite app_nil_r|]. apply NoDup_cons in Hn as [Hn1 Hn2]. cbn [foldl rbind omap list_omap].
    unfold fs_exists, read_arr, fs_read. rewrite dmem_dget, (H n). destruct (dget A n) as [a|] eqn:E; cbn [fmap option_fmap option_map rbind].
    - rewrite bool_decide_eq_true_2 by done. rewrite dset_new by (apply Hl; left). change (foldl _ _ ns) with
        (foldl (fun acc n => let* l := acc in if fs_exists F [FCells r n] then let* a := read_arr F [FCells r n] in Ok (dset l n a) else Ok l) (Ok (l0 ++ [(n, a)])) ns).
      rewrite IH; [by rewrite <- app_assoc|done|]. intros n' Hn' Hk. unfold dkeys in Hk. rewrite fmap_app in Hk. apply elem_of_app in Hk as [Hk|Hk%elem_of_list_singleton].
      + apply (Hl n'); [by right|done].
      + cbn in Hk. by subst.
    - rewrite bool_decide_eq_false_2 by (by intros [? ?]). apply IH; [done|]. intros n' Hn'. apply Hl. by right. }
  rewrite HL; [done|apply stored_NoDup|]. intros n _. apply not_elem_of_nil.
Qed.
Lemma reload_is_load F t m : plain_tile t -> tile_stored F t -> load_tile F [] (Some t) m = Ok (Some (t_reload m t)).
Proof.
  intros HP HS. destruct (loaded_fields F t m (Some t) HS) as (L & EX & EY & I & d & Hd & Hrs & HL & HE & HT). rewrite HT. f_equal. f_equal.
  cbn [from_option default id] in *. unfold t_reload.
  rewrite !(foldl_dset_id EX), !(foldl_dset_id EY), (foldl_dset_id I) by (intros r Hr; by destruct (HE r Hr) as (? & ? & ?)).
  assert (HX : (if saves_points m then Some d else t_data t) = t_data t) by (rewrite Hd; by destruct (saves_points m)). rewrite HX.
  destruct (saves_grid m); [|by destruct t]. rewrite foldl_dset_map; [|apply (pt_cells _ HP)|intros r Hr; by apply Hrs].
  assert (HC : dmapkv (fun k v => if decide (k ∈ listed_rezs (fs_listdir F [])) then L k else v) (t_cells t) = dmapv stored_part (t_cells t)).
  { unfold dmapkv, dmapv. apply map_ext_in. intros [r l] Hin%elem_of_list_In. cbn [fst snd]. assert (Hr : r ∈ dkeys (t_cells t)) by (apply elem_of_list_fmap; by exists (r, l)).
    rewrite decide_True by (by apply Hrs). destruct (HL r "") as [H1 _]; [by apply Hrs|]. apply dget_elem_NoDup in Hin; [|apply (pt_cells _ HP)].
    rewrite (load_layers_eq F r l) in H1; [by injection H1 as <-|]. intros name. rewrite (gs_layers _ _ (ts_grid _ _ HS)). unfold layer_of. by rewrite Hin. }
  rewrite HC. by destruct t.
Qed.
