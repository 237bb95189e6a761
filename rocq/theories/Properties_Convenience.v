(** C62-C65, C78: folders, create_grid and load_grid. *)
From Coq Require Import Lqa.
From Verif Require Import Py Nd Numpy Point Bin Algorithms Tile Time Meta Disk Grid GridRun GridOps Store Convenience FolderSpec Spec TileExec GridExec StoreExec PyFacts GridPlaceFacts
  FolderFacts ConvenienceFacts GridReachFacts GridVrFacts Samples GridSamples.
Open Scope Z_scope.

(** ** C62: create_folder *)
(** A folder with a grid, a file beside it. *)
Definition disk_1 : tfs := [(["/"; "data"], TDir); (["/"; "data"; "grid"], TDir); (["/"; "data"; "grid"; "SRGrid_Root"], TDir); (["/"; "data"; "notes.txt"], TFile "x")].
Lemma rooted_1 : rooted disk_1.
Proof.
  intros p n H. apply dget_Some_elem in H. apply elem_of_list_In in H. cbn in H.
  destruct H as [[= <- <-]|[[= <- <-]|[[= <- <-]|[[= <- <-]|[]]]]]; (split; [done|]; split; [done|reflexivity]).
Qed.
(** The folder that is returned exists and is empty, whether it is new or reused. *)
Theorem C62_empty f dir name stamp f' p : rooted f -> create_folder f dir name stamp = (f', Ok p) ->
  empty_folder f' (parts p) /\ (p = path_join dir name \/ p = path_join dir (name +:+ "_" +:+ stamp)).
Proof. apply create_folder_empty. Qed.
(** Whatever the outcome, every file and folder stays, and the only new entries are folders on the way to the
    requested one, the requested one and its neighbour with the time stamp. *)
Theorem C62_untouched f dir name stamp f' r : rooted f -> create_folder f dir name stamp = (f', r) ->
  keeps f f' /\ adds (fun q => q `prefix_of` parts dir \/ q = parts (path_join dir name) \/ q = parts (path_join dir (name +:+ "_" +:+ stamp))) f f' /\ rooted f'.
Proof. intros R H. destruct (create_folder_keeps f dir name stamp f' r R H) as (A & B & C). done. Qed.
(** A populated folder that is given is not returned. *)
Theorem C62_not_reused f dir name stamp f' p a q n : rooted f -> create_folder f dir name stamp = (f', Ok p) ->
  dget f (parts (path_join dir name) ++ a :: q) = Some n -> p = path_join dir (name +:+ "_" +:+ stamp).
Proof.
  intros R H Hq. destruct (create_folder_empty f dir name stamp f' p R H) as [[_ E] [->| ->]]; [exfalso|done].
  destruct (create_folder_keeps f dir name stamp f' _ R H) as (_ & K & _). apply K in Hq. by rewrite E in Hq.
Qed.
Example folders_1 :
  create_folder disk_1 "/data" "new" "20210101_000000" = (disk_1 ++ [(["/"; "data"; "new"], TDir)], Ok "/data/new") /\
  create_folder disk_1 "/data/" "grid" "20210101_000000" = (disk_1 ++ [(["/"; "data"; "grid_20210101_000000"], TDir)], Ok "/data/grid_20210101_000000") /\
  create_folder disk_1 "/data/grid" "SRGrid_Root" "20210101_000000" = (disk_1, Ok "/data/grid/SRGrid_Root") /\
  create_folder disk_1 "/data/a/b" "grid" "s" = (disk_1 ++ [(["/"; "data"; "a"], TDir); (["/"; "data"; "a"; "b"], TDir); (["/"; "data"; "a"; "b"; "grid"], TDir)], Ok "/data/a/b/grid") /\
  create_folder disk_1 "/data/notes.txt" "grid" "s" = (disk_1, Raise FileExistsError) /\
  create_folder disk_1 "/data" "notes.txt" "s" = (disk_1, Raise EnvironmentError).
Proof. repeat split; vm_compute; reflexivity. Qed.

(** ** C78: the folder of create_grid *)
(** False of a name without a folder: the folder part is '', which os.makedirs refuses. *)
Theorem C78_relative_refuted : exists e f folder stamp, rooted f /\ stat f folder = None /\
  check_options e "single_resolution" "numpy" 4096 512 = Ok tt /\
  create_grid e f folder stamp "single_resolution" "numpy" 4096 512 false = (f, Raise FileNotFoundError).
Proof. exists env_s, disk_1, "mygrid", "s". split; [exact rooted_1|]. split; [reflexivity|]. split; vm_compute; reflexivity. Qed.
(** False of options that are refused: the folder is made first and stays. *)
Theorem C78_refused_refuted : exists e f folder f', rooted f /\ stat f folder = None /\
  create_grid e f folder "s" "quadtree" "numpy" 4096 512 false = (f', Raise ValueError) /\ stat f' folder = Some TDir.
Proof. exists env_s, disk_1, "/data/new", (disk_1 ++ [(["/"; "data"; "new"], TDir)]). split; [exact rooted_1|]. split; [reflexivity|]. split; vm_compute; reflexivity. Qed.
(** False of two calls within a second for a folder that is in use. *)
Theorem C78_second_refuted : exists e f f' o1, rooted f /\
  create_grid e f "/data/grid" "20210101_000000" "single_resolution" "numpy" 4096 512 false = (f', Ok o1) /\
  create_grid e f' "/data/grid" "20210101_000000" "single_resolution" "numpy" 4096 512 false = (f', Raise FileExistsError).
Proof.
  exists env_s, disk_1, (disk_1 ++ [(["/"; "data"; "grid_20210101_000000"], TDir)]), (SRGrid, SrObj (create_sr 4096 false false true), "/data/grid_20210101_000000").
  split; [exact rooted_1|]. split; vm_compute; reflexivity.
Qed.
(** False of a path that ends in '/': the new folder is made inside the folder that is in use. *)
Theorem C78_slash_refuted : exists e f f' o, rooted f /\
  create_grid e f "/data/grid/" "20210101_000000" "single_resolution" "numpy" 4096 512 false = (f', Ok (o, "/data/grid/_20210101_000000")) /\
  dget f ["/"; "data"; "grid"; "SRGrid_Root"] = Some TDir /\ dget f' ["/"; "data"; "grid"; "_20210101_000000"] = Some TDir.
Proof.
  exists env_s, disk_1, (disk_1 ++ [(["/"; "data"; "grid"; "_20210101_000000"], TDir)]), (SRGrid, SrObj (create_sr 4096 false false true)).
  split; [exact rooted_1|]. split; [vm_compute; reflexivity|]. split; vm_compute; reflexivity.
Qed.
(** Missing: the four cases above. With a folder part, a name, nothing in the way and options that are
    accepted, the grid gets the requested folder, … *)
Theorem C78_new_partial e f folder dir name stamp ty be size sub b : rooted f -> path_split folder = (dir, name) -> dir <> "" -> plain_name name ->
  check_options e ty be size sub = Ok tt -> no_file_on f (parts dir) -> look f (parts dir ++ [name]) = None ->
  exists f' cls o, create_grid e f folder stamp ty be size sub b = (f', Ok (cls, o, path_join dir name)) /\ empty_folder f' (parts (path_join dir name)) /\ keeps f f'.
Proof.
  intros R Hp Hd Hn Hc Hf Hl. destruct (create_folder_new f dir name stamp R Hd Hn Hf Hl) as [f' E].
  destruct (create_grid_good e f folder stamp ty be size sub b Hc) as (_ & G & _). destruct (G f' (path_join dir name)) as (cls & o & G').
  - intros ->. injection Hp as <- <-. done.
  - by rewrite Hp.
  - exists f', cls, o. split; [done|]. split; [by apply (create_folder_empty f dir name stamp)|]. by destruct (create_folder_keeps f dir name stamp f' _ R E) as (_ & ? & _).
Qed.
(** … and beside a folder that is in use it gets one with the time stamp, when that is not in use. *)
Theorem C78_beside_partial e f folder dir name stamp ty be size sub b : rooted f -> path_split folder = (dir, name) -> dir <> "" -> plain_name name ->
  ~ In slash (list_ascii_of_string stamp) -> check_options e ty be size sub = Ok tt -> look f (parts dir) = Some TDir -> look f (parts dir ++ [name]) = Some TDir ->
  listdir f (path_join dir name) <> Ok [] -> look f (parts dir ++ [name +:+ "_" +:+ stamp]) = None ->
  exists f' cls o, create_grid e f folder stamp ty be size sub b = (f', Ok (cls, o, path_join dir (name +:+ "_" +:+ stamp))) /\
    empty_folder f' (parts (path_join dir (name +:+ "_" +:+ stamp))) /\ keeps f f'.
Proof.
  intros R Hp Hd Hn Hs Hc L1 L2 Hl L3. destruct (create_folder_beside f dir name stamp R Hd Hn Hs L1 L2 Hl L3) as [f' E].
  destruct (create_grid_good e f folder stamp ty be size sub b Hc) as (_ & G & _). destruct (G f' (path_join dir (name +:+ "_" +:+ stamp))) as (cls & o & G').
  - intros ->. injection Hp as <- <-. done.
  - by rewrite Hp.
  - exists f', cls, o. split; [done|]. split; [by apply (create_folder_empty f dir name stamp)|]. by destruct (create_folder_keeps f dir name stamp f' _ R E) as (_ & ? & _).
Qed.
(** Without a folder no options change anything on disk. *)
Theorem C78_memory_partial e f stamp ty be size sub b : (create_grid e f "" stamp ty be size sub b).1 = f.
Proof. reflexivity. Qed.
Example splits_1 : path_split "/data/new" = ("/data", "new") /\ path_split "/data//new" = ("/data", "new") /\ path_split "new" = ("", "new") /\
  path_split "/new" = ("/", "new") /\ path_split "/data/new/" = ("/data/new", "") /\ path_split "" = ("", "") /\ path_split "//new" = ("//", "new") /\
  parts "/data//new/" = ["/"; "data"; "new"] /\ parts "a/b" = ["a"; "b"] /\ path_join "a" "b" = "a/b" /\ path_join "a/" "b" = "a/b" /\ path_join "a" "/b" = "/b" /\
  path_join "a" "" = "a/".
Proof. repeat split; vm_compute; reflexivity. Qed.
Example new_1 : exists f' cls o, create_grid env_s disk_1 "/data/new" "s" "variable_resolution_tile" "zarr" 4096 512 true = (f', Ok (cls, o, "/data/new")) /\
  path_split "/data/new" = ("/data", "new") /\ plain_name "new" /\ no_file_on disk_1 (parts "/data") /\ look disk_1 (parts "/data" ++ ["new"]) = None /\
  check_options env_s "variable_resolution_tile" "zarr" 4096 512 = Ok tt.
Proof.
  exists (disk_1 ++ [(["/"; "data"; "new"], TDir)]), VRGridTileZarr, (VrObj (create_vr 4096 512 true true true)).
  split; [vm_compute; reflexivity|]. split; [reflexivity|]. split; [split; [done|]; cbn; intuition discriminate|]. split.
  - intros q c Hq. assert (H : q = [] \/ q = ["/"] \/ q = ["/"; "data"]).
    { change (parts "/data") with ["/"; "data"] in Hq. destruct q as [|a q]; [by left|]. apply prefix_cons_inv_1 in Hq as Ha. apply prefix_cons_inv_2 in Hq. subst a. right.
      destruct q as [|a q]; [by left|]. apply prefix_cons_inv_1 in Hq as Ha. apply prefix_cons_inv_2 in Hq. subst a. apply prefix_nil_inv in Hq as ->. by right. }
    destruct H as [->|[->| ->]]; vm_compute; congruence.
  - split; vm_compute; reflexivity.
Qed.

(** ** C64: is_bathygrid and the check of load_grid *)
Theorem C64_accepted f folder r : validate_load_path f folder = Ok r -> is_bathygrid f folder = true.
Proof.
  unfold validate_load_path, is_bathygrid. destruct (stat f folder) as [n|] eqn:E; [|done]. destruct (listdir f folder) as [l|] eqn:El; [|done]. cbn [rbind].
  destruct (pick_root l) as [s|] eqn:Ep; [|done]. intros _. unfold listdir in El. rewrite E in El. destruct n; [|done].
  apply pick_root_Ok in Ep as [Hs Hl]. apply existsb_exists. exists s. split; [|by apply bool_decide_eq_true]. apply elem_of_list_In.
  assert (H : s ∈ filter (fun n => n ∈ root_names) l) by (rewrite Hl; by left). by apply elem_of_list_filter in H as [_ H].
Qed.
(** is_bathygrid says whether some entry of the folder is named like a root folder. *)
Theorem C64_is_bathygrid f folder : is_bathygrid f folder = true <->
  stat f folder = Some TDir /\ exists s, s ∈ root_names /\ is_Some (dget f (parts folder ++ [s])).
Proof.
  unfold is_bathygrid. destruct (stat f folder) as [[|c]|] eqn:E; [|split; [done|intros [? _]; done]..].
  destruct (listdir f folder) as [l|] eqn:El.
  - rewrite existsb_exists. split.
    + intros (s & H1 & H2). split; [done|]. exists s. split; [by apply bool_decide_eq_true in H2|]. apply (listdir_elem f folder l s El). by apply elem_of_list_In.
    + intros (_ & s & H1 & H2). exists s. split; [|by apply bool_decide_eq_true]. apply elem_of_list_In. by apply (listdir_elem f folder l s El).
  - unfold listdir in El. by rewrite E in El.
Qed.
Theorem C64_single f folder s : NoDup (dkeys f) -> is_bathygrid f folder = true -> s ∈ root_names ->
  (forall s', s' ∈ root_names -> is_Some (dget f (parts folder ++ [s'])) <-> s' = s) ->
  validate_load_path f folder = Ok (path_join folder s, s).
Proof.
  intros N H Hs H1. apply C64_is_bathygrid in H as [E _]. unfold validate_load_path. rewrite E. unfold listdir at 1. rewrite E. cbn [rbind].
  set (l := omap _ _). assert (El : listdir f folder = Ok l) by (unfold listdir; by rewrite E).
  rewrite (pick_root_only l s); [done| |apply (listdir_elem f folder l s El); by apply H1|done|].
  - apply omap_nodup; [|done]. intros x y b Hx Hy. unfold entry_of in *.
    destruct (reverse x) as [|a rx] eqn:Ex; [done|]. destruct (reverse y) as [|a' ry] eqn:Ey; [done|].
    case_bool_decide as D1; [|done]. case_bool_decide as D2; [|done].
    apply (f_equal reverse) in Ex, Ey. rewrite reverse_involutive, reverse_cons in Ex, Ey. congruence.
  - intros s' H2 H3. apply H1; [done|]. by apply (listdir_elem f folder l s' El).
Qed.
(** With two root folders is_bathygrid is True and load_grid raises. *)
Example roots_1 :
  is_bathygrid disk_1 "/data/grid" = true /\ validate_load_path disk_1 "/data/grid" = Ok ("/data/grid/SRGrid_Root", "SRGrid_Root") /\
  is_bathygrid disk_1 "/data" = false /\ validate_load_path disk_1 "/data" = Raise EnvironmentError /\
  is_bathygrid disk_1 "/data/notes.txt" = false /\ is_bathygrid disk_1 "/nowhere" = false /\
  (let two := disk_1 ++ [(["/"; "data"; "grid"; "VRGridTile_Root"], TDir)] in
   is_bathygrid two "/data/grid" = true /\ validate_load_path two "/data/grid" = Raise EnvironmentError).
Proof. repeat split; vm_compute; reflexivity. Qed.

(** ** C65: remove_with_permissionserror *)
Theorem C65_bounded rm f path retries : 0 <= retries -> Z.of_nat (remove_with_permissionserror rm f path retries).1.2 <= retries + 1.
Proof.
  intros H. unfold remove_with_permissionserror. destruct (stat f path); [|cbn; lia]. pose proof (rm_loop_calls rm (Z.to_nat retries) f 0). lia.
Qed.
(** [rm] may do anything when it raises; a normal return of rmtree means that the path is gone. *)
Theorem C65_gone rm f path retries : (forall k f, (rm k f).2 = None -> stat (rm k f).1 path = None) -> 1 <= retries ->
  (remove_with_permissionserror rm f path retries).2 = None -> stat (remove_with_permissionserror rm f path retries).1.1 path = None.
Proof.
  intros H Hr. unfold remove_with_permissionserror. destruct (stat f path) eqn:E; [|done]. apply (rm_loop_gone rm (fun g => stat g path = None)); [done|lia].
Qed.
(** It returns normally exactly when the path is not there or one of the first retries + 1 calls succeeds after
    nothing but PermissionErrors. *)
Theorem C65_normal rm f path retries : 1 <= retries ->
  (remove_with_permissionserror rm f path retries).2 = None <->
  stat f path = None \/ exists j g, Z.of_nat j <= retries /\ denied rm 0 j f g /\ (rm j g).2 = None.
Proof.
  intros Hr. unfold remove_with_permissionserror. destruct (stat f path) eqn:E; [|split; [by left|done]].
  rewrite rm_loop_normal by lia. split.
  - intros (j & g & H1 & H2 & H3). right. exists j, g. split; [lia|done].
  - intros [|(j & g & H1 & H2 & H3)]; [done|]. exists j, g. split; [lia|done].
Qed.
(** Without retries nothing is removed, and the call returns. *)
Theorem C65_none rm f path retries : retries <= 0 -> remove_with_permissionserror rm f path retries = (f, 0%nat, None).
Proof. intros H. unfold remove_with_permissionserror. replace (Z.to_nat retries) with 0%nat by lia. by destruct (stat f path). Qed.
Definition rm_at (n : nat) (k : nat) (f : tfs) : tfs * option exn :=
  if (k <? n)%nat then (f, Some PermissionError) else (filter (fun kv => bool_decide (["/"; "data"; "grid"] `prefix_of` kv.1) = false) f, None).
Example removed_1 :
  remove_with_permissionserror (rm_at 2) disk_1 "/data/grid" 3 = ([(["/"; "data"], TDir); (["/"; "data"; "notes.txt"], TFile "x")], 3%nat, None) /\
  remove_with_permissionserror (rm_at 2) disk_1 "/data/grid" 2 = ([(["/"; "data"], TDir); (["/"; "data"; "notes.txt"], TFile "x")], 3%nat, None) /\
  remove_with_permissionserror (rm_at 3) disk_1 "/data/grid" 2 = (disk_1, 3%nat, Some PermissionError).
Proof. repeat split; vm_compute; reflexivity. Qed.

(** ** C63: create_grid and load_grid *)
(** The classes, by the type and the backend. *)
Definition classes : list (string * string * gclass) :=
  [("single_resolution", "numpy", SRGrid); ("single_resolution", "zarr", SRGridZarr);
   ("variable_resolution_tile", "numpy", VRGridTile); ("variable_resolution_tile", "zarr", VRGridTileZarr)].
(** In memory, create_grid gives a grid exactly for these combinations and sizes that are powers of two. *)
Theorem C63_supported e f stamp ty be size sub b :
  ((exists cls o, create_grid e f "" stamp ty be size sub b = (f, Ok (cls, o, ""))) <->
     (exists cls, (ty, be, cls) ∈ classes) /\ is_power_of_two (metres e size) = true /\ (ty = "variable_resolution_tile" -> is_power_of_two (metres e sub) = true)) /\
  ((~ exists cls o, create_grid e f "" stamp ty be size sub b = (f, Ok (cls, o, ""))) -> create_grid e f "" stamp ty be size sub b = (f, Raise ValueError)).
Proof.
  assert (HC : (exists cls, (ty, be, cls) ∈ classes) <-> ty ∈ ["single_resolution"; "variable_resolution_tile"] /\ be ∈ ["numpy"; "zarr"]).
  { split.
    - intros [cls H]. apply elem_of_list_In in H. cbn in H. destruct H as [H|[H|[H|[H|[]]]]]; injection H as <- <- _; split; apply elem_of_list_In; cbn; auto.
    - intros [H1 H2]. apply elem_of_list_In in H1, H2. cbn in H1, H2.
      destruct H1 as [<-|[<-|[]]]; destruct H2 as [<-|[<-|[]]]; eexists; apply elem_of_list_In; cbn; eauto. }
  rewrite HC. assert (D : check_options e ty be size sub = Ok tt \/ check_options e ty be size sub <> Ok tt) by (destruct (check_options e ty be size sub) as [[]|]; [by left|by right]).
  destruct D as [D|D].
  - destruct (create_grid_good e f "" stamp ty be size sub b D) as (G & _ & _). specialize (G eq_refl). split; [|done].
    pose proof (proj1 (check_options_Ok _ _ _ _ _) D). tauto.
  - destruct (create_grid_bad e f "" stamp ty be size sub b D) as (G & _ & _). specialize (G eq_refl). split; [|done]. split.
    + intros (cls & o & H). rewrite G in H. done.
    + intros H. exfalso. apply D, check_options_Ok. tauto.
Qed.
(** With a folder too, other options raise. *)
Theorem C63_unsupported e f folder stamp ty be size sub b :
  (~ exists cls, (ty, be, cls) ∈ classes) \/ is_power_of_two (metres e size) = false \/ (ty = "variable_resolution_tile" /\ is_power_of_two (metres e sub) = false) ->
  exists x, (create_grid e f folder stamp ty be size sub b).2 = Raise x.
Proof.
  intros H. apply create_grid_bad. intros D. apply check_options_Ok in D as (H1 & H2 & H3 & H4). apply elem_of_list_In in H1, H2. cbn in H1, H2.
  destruct H as [H|[H|[H H']]]; [|congruence|specialize (H4 H); congruence]. apply H.
  destruct H1 as [<-|[<-|[]]]; destruct H2 as [<-|[<-|[]]]; eexists; apply elem_of_list_In; cbn; eauto.
Qed.
(** A single resolution grid with soundings is saved to a folder [F] that has no root folder of another
    class: load_grid gives the class that create_grid made, the tile size, and the content. *)
Theorem C63_sr e f folder stamp ty be size sub b f1 cls g0 p g ct F :
  create_grid e f folder stamp ty be size sub b = (f1, Ok (cls, SrObj g0, p)) -> update_history sr_ops e known_args g0 g ct -> ct <> [] -> NoDup (dkeys F) ->
  (forall s, s ∈ root_names -> NRoot s <> m_name (g_meta g) -> dget F [FFolder (NRoot s)] = None) ->
  (ty, be, cls) ∈ classes /\ save_to_exn (SrObj g) = None /\
  exists g', load_grid_from (fs_run F (save_to (SrObj g))) = Ok (cls, SrObj g') /\ m_tile_size (g_meta g') = size /\
    g_geom g' = g_geom g /\ g_meta g' = g_meta g /\ same_tiles same_tile g g'.
Proof.
  intros HC H Hne N Ho. destruct (create_grid_Ok _ _ _ _ _ _ _ _ _ _ _ _ _ HC) as [C [(-> & z & E & -> & ->)|(_ & z & E & _)]]; [|done]. injection E as ->.
  apply check_options_Ok in C as (_ & _ & C & _). apply metres_pos in C. split; [destruct z; apply elem_of_list_In; cbn; auto|].
  destruct (sr_container e size b z _ C g ct F H Hne N Ho) as (A & g' & L & A1 & A2 & A3). split; [done|]. exists g'. split; [done|]. split; [|done].
  rewrite A2. exact (mf_size _ _ (sr_frame e size b z _ C g ct H)).
Qed.
(** A variable resolution grid: also both tile sizes, when the folder has no sub-grid of this class at a
    location where the grid has none (C77). *)
Theorem C63_vr e f folder stamp ty be size sub b f1 cls g0 p g ct F :
  create_grid e f folder stamp ty be size sub b = (f1, Ok (cls, VrObj g0, p)) -> update_history vr_ops e known_args g0 g ct -> ct <> [] -> NoDup (dkeys F) ->
  (forall s, s ∈ root_names -> NRoot s <> m_name (g_meta g) -> dget F [FFolder (NRoot s)] = None) ->
  (forall k x y, origin_at g k = Some (x, y) -> tile_at g k = None -> fs_exists F [FFolder (m_name (g_meta g)); FFolder (NTile x y)] = false) ->
  (ty, be, cls) ∈ classes /\ save_to_exn (VrObj g) = None /\
  exists g', load_grid_from (fs_run F (save_to (VrObj g))) = Ok (cls, VrObj g') /\ m_tile_size (g_meta g') = size /\ m_subtile_size (g_meta g') = sub /\
    g_geom g' = g_geom g /\ g_meta g' = g_meta g /\ same_tiles same_sub g g'.
Proof.
  intros HC H Hne N Ho He. destruct (create_grid_Ok _ _ _ _ _ _ _ _ _ _ _ _ _ HC) as [C [(_ & z & E & _)|(-> & z & E & -> & ->)]]; [done|]. injection E as ->.
  apply check_options_Ok in C as (_ & _ & C & C'). apply metres_pos in C. specialize (C' eq_refl). apply metres_pos in C'. split; [destruct z; apply elem_of_list_In; cbn; auto|].
  destruct (vr_container e size sub b z _ C C' g ct F H Hne N Ho He) as (A & g' & L & A1 & A2 & A3). split; [done|]. exists g'. split; [done|].
  pose proof (vr_frame e size sub b z _ C C' g ct H) as Fr. split; [rewrite A2; exact (mf_size _ _ Fr)|]. split; [rewrite A2; exact (mf_sub _ _ Fr)|done].
Qed.
(** All four classes: made, filled, saved to an empty folder and loaded. *)
Definition loaded_class (r : res (gclass * gobj)) : option (gclass * Z * Z) :=
  match r with Ok (c, o) => Some (c, m_tile_size (obj_meta o), m_subtile_size (obj_meta o)) | Raise _ => None end.
Definition sr_of (z : bool) := st_of (g_add_points sr_ops (create_sr 16 false z false) (GoodData pts_one) (args_of "one")).
Definition vr_of (z : bool) := st_of (g_add_points vr_ops (create_vr 16 8 false z false) (GoodData pts_one) (args_of "one")).
Example classes_1 :
  map (fun tb : string * string => (create_grid env_s [] "" "s" tb.1 tb.2 16 8 false).2)
      [("single_resolution", "numpy"); ("single_resolution", "zarr"); ("variable_resolution_tile", "numpy"); ("variable_resolution_tile", "zarr")] =
    [Ok (SRGrid, SrObj (create_sr 16 false false false), ""); Ok (SRGridZarr, SrObj (create_sr 16 false true false), "");
     Ok (VRGridTile, VrObj (create_vr 16 8 false false false), ""); Ok (VRGridTileZarr, VrObj (create_vr 16 8 false true false), "")] /\
  map (fun o => loaded_class (load_grid_from (fs_run [] (save_to o)))) [SrObj (sr_of false); SrObj (sr_of true); VrObj (vr_of false); VrObj (vr_of true)] =
    [Some (SRGrid, 16, 0); Some (SRGridZarr, 16, 0); Some (VRGridTile, 16, 8); Some (VRGridTileZarr, 16, 8)] /\
  (forall z, update_history sr_ops env_s known_args (create_sr 16 false z false) (sr_of z) [("one", pts_one)]) /\
  (forall z, update_history vr_ops env_s known_args (create_vr 16 8 false z false) (vr_of z) [("one", pts_one)]).
Proof.
  split; [vm_compute; reflexivity|]. split; [vm_compute; reflexivity|].
  split; intros []; (apply (UH_add _ _ _ _ _ [] pts_one (args_of "one")); [apply UH_new|vm_compute; reflexivity]).
Qed.
Example refused_1 :
  (create_grid env_s [] "" "s" "quadtree" "numpy" 16 8 false).2 = Raise ValueError /\ (create_grid env_s [] "" "s" "single_resolution" "hdf" 16 8 false).2 = Raise ValueError /\
  (create_grid env_s [] "" "s" "single_resolution" "numpy" 12 8 false).2 = Raise ValueError /\ (create_grid env_s [] "" "s" "variable_resolution_tile" "numpy" 16 12 false).2 = Raise ValueError.
Proof. repeat split; vm_compute; reflexivity. Qed.

Print Assumptions C62_empty.
Print Assumptions C62_untouched.
Print Assumptions C62_not_reused.
Print Assumptions C78_relative_refuted.
Print Assumptions C78_refused_refuted.
Print Assumptions C78_second_refuted.
Print Assumptions C78_slash_refuted.
Print Assumptions C78_new_partial.
Print Assumptions C78_beside_partial.
Print Assumptions C78_memory_partial.
Print Assumptions C64_accepted.
Print Assumptions C64_is_bathygrid.
Print Assumptions C64_single.
Print Assumptions C65_bounded.
Print Assumptions C65_gone.
Print Assumptions C65_normal.
Print Assumptions C65_none.
Print Assumptions C63_supported.
Print Assumptions C63_unsupported.
Print Assumptions C63_sr.
Print Assumptions C63_vr.
