(** The files that exports write: C106, C107. *)
From Coq Require Import Ascii.
From Verif Require Import Py Nd Numpy Point Bin Algorithms Tile Meta Grid GridRun GridQuery GridOps Export Views Convenience ExportNames Names FolderSpec FilesSpec Spec TileExec GridExec
  NameFacts GridKeepFacts ExportNameFacts NamesFacts Samples GridSamples Properties_Grid.
Open Scope Z_scope.

(** The texts of numbers of Python, for multiples of a quarter, and of times are as assumed below. *)
Example repr_1 : name_repr repr_quarters.
Proof. split; [exact repr_quarters_ok|exact quarters_slash]. Qed.
Example stamp_1 : name_stamp "20210304_101112".
Proof. split; intros H; cbn in H; intuition discriminate. Qed.
Example splitext_1 : splitext "/data/out.csv" = ("/data/out", ".csv") /\ splitext "out" = ("out", "") /\ splitext "a.b/out" = ("a.b/out", "") /\
  splitext "/data/.out" = ("/data/.out", "") /\ splitext "..out.tar.gz" = ("..out.tar", ".gz") /\ splitext "out." = ("out", ".").
Proof. vm_compute. repeat split. Qed.

(** ** C106 *)
(** export() looks for the path that it is given, but writes other files: exporting to the same path again replaces the files of the
    first export. This is so for all paths that did not exist. *)
Theorem C106_again_partial {T} (O : tile_ops T) e repr f stamp stamp' path g format up rez mx vert names : name_repr repr -> name_stamp stamp ->
  (path_split path).2 <> "" -> stat f path = None -> export_names O e repr f stamp path g format up rez mx vert = Ok names ->
  export_names O e repr (put f names) stamp' path g format up rez mx vert = Ok names.
Proof. intros [H1 H2] [H3 _] Hp Hf E. by apply (files_again O e repr H1 H2 f stamp path g format up rez mx vert names Hp H3 E). Qed.
Print Assumptions C106_again_partial.
Definition disk_1 : tfs := [(["/"; "data"], TDir); (["/"; "data"; "out_1.0.csv"], TFile "")].
Example disk_1_rooted : rooted disk_1.
Proof.
  intros p n H. unfold disk_1 in H. cbn [dget] in H.
  destruct (decide (p = ["/"; "data"])) as [->|_]; [split; [discriminate|]; split; [discriminate|vm_compute; reflexivity]|].
  destruct (decide (p = ["/"; "data"; "out_1.0.csv"])) as [->|_]; [split; [discriminate|]; split; [discriminate|vm_compute; reflexivity]|]. discriminate.
Qed.
Theorem C106_overwrite_refuted : exists e repr f stamp path g format up rez mx vert names n,
  name_repr repr /\ name_stamp stamp /\ (path_split path).2 <> "" /\ rooted f /\
  export_names sr_ops e repr f stamp path g format up rez mx vert = Ok names /\ n ∈ names /\ stat f n <> None.
Proof.
  exists env_s, repr_quarters, disk_1, "20210304_101112", "/data/out.csv", run_1, "csv", true, None, None, "", ["/data/out_1.0.csv"], "/data/out_1.0.csv".
  split; [exact repr_1|]. split; [exact stamp_1|]. split; [vm_compute; discriminate|]. split; [exact disk_1_rooted|].
  split; [vm_compute; reflexivity|]. split; [left|]. vm_compute. discriminate.
Qed.
Print Assumptions C106_overwrite_refuted.
(** If the path exists and no name on the disk contains the time stamp, nothing is replaced. *)
Theorem C106_stamped_partial {T} (O : tile_ops T) e repr f stamp path g format up rez mx vert names n : name_repr repr -> name_stamp stamp ->
  (path_split path).2 <> "" -> stat f path <> None -> (forall p x v, dget f (p ++ [x]) = Some v -> ~ occurs stamp x) ->
  export_names O e repr f stamp path g format up rez mx vert = Ok names -> n ∈ names -> stat f n = None.
Proof. intros [H1 H2] [H3 H4] Hp Hf Ho E. by apply (files_stamped O e repr H1 H2 f stamp path g format up rez mx vert names Hp H3 E). Qed.
Print Assumptions C106_stamped_partial.
(** If the path does not exist, nothing is replaced unless a name in its folder begins with the name of the path, without extension, and '_'. *)
Theorem C106_missing_partial {T} (O : tile_ops T) e repr f stamp path g format up rez mx vert names n : name_repr repr -> name_stamp stamp ->
  (path_split path).2 <> "" -> stat f path = None ->
  (forall x v, dget f (removelast (parts path) ++ [x]) = Some v -> ~ exists s, x = (splitext (path_split path).2).1 +:+ "_" +:+ s) ->
  export_names O e repr f stamp path g format up rez mx vert = Ok names -> n ∈ names -> stat f n = None.
Proof. intros [H1 H2] [H3 H4] Hp Hf Ho E. by apply (files_missing O e repr H1 H2 f stamp path g format up rez mx vert names Hp H3 E). Qed.
Print Assumptions C106_missing_partial.
(** The first export to a new path, the second, which replaces it, and one to a path that exists. *)
Definition disk_2 : tfs := [(["/"; "data"], TDir); (["/"; "data"; "out.csv"], TFile "mine")].
Example C106_case :
  export_names sr_ops env_s repr_quarters [(["/"; "data"], TDir)] "20210304_101112" "/data/out.csv" run_1 "csv" true None None "" = Ok ["/data/out_1.0.csv"] /\
  export_names sr_ops env_s repr_quarters (put [(["/"; "data"], TDir)] ["/data/out_1.0.csv"]) "20210304_101113" "/data/out.csv" run_1 "csv" true None None "" = Ok ["/data/out_1.0.csv"] /\
  export_names sr_ops env_s repr_quarters disk_2 "20210304_101112" "/data/out.csv" run_1 "csv" true None None "" = Ok ["/data/out_20210304_101112_1.0.csv"] /\
  (forall p x v, dget disk_2 (p ++ [x]) = Some v -> ~ occurs "20210304_101112" x) /\ stat disk_2 "/data/out.csv" <> None /\ (path_split "/data/out.csv").2 = "out.csv".
Proof.
  split; [vm_compute; reflexivity|]. split; [vm_compute; reflexivity|]. split; [vm_compute; reflexivity|]. split; [|split; [vm_compute; discriminate|vm_compute; reflexivity]].
  intros p x v H [a [b Ex]]. assert (Hx : x = "data" \/ x = "out.csv").
  { unfold disk_2 in H. cbn [dget] in H. destruct (decide (p ++ [x] = ["/"; "data"])) as [E|_]; [apply (app_inj_tail p ["/"]) in E as [_ ->]; by left|].
    destruct (decide (p ++ [x] = ["/"; "data"; "out.csv"])) as [E|_]; [apply (app_inj_tail p ["/"; "data"]) in E as [_ ->]; by right|]. discriminate. }
  apply (f_equal (fun s => length (list_ascii_of_string s))) in Ex. rewrite !chars_app, !app_length in Ex. destruct Hx as [-> | ->]; cbn in Ex; lia.
Qed.

(** ** C107 *)
(** For grids after any calls; with a given resolution also for other grids. *)
Theorem C107_sr_distinct e repr size b zarr disk g ct seen ok f stamp path format up rez mx vert names : name_repr repr -> sr_history e size b zarr disk g ct seen ok ->
  export_names sr_ops e repr f stamp path g format up rez mx vert = Ok names -> NoDup names.
Proof.
  intros [H1 H2] H E. apply (files_distinct sr_ops e repr H1 H2 f stamp path g format up rez mx vert names E). unfold rezs_of. destruct rez; [apply NoDup_singleton|].
  eapply rezs_history; [|exact H]. apply NoDup_nil_2.
Qed.
Print Assumptions C107_sr_distinct.
Theorem C107_vr_distinct e repr size sub b zarr disk g ct seen ok f stamp path format up rez mx vert names : name_repr repr -> vr_history e size sub b zarr disk g ct seen ok ->
  export_names vr_ops e repr f stamp path g format up rez mx vert = Ok names -> NoDup names.
Proof.
  intros [H1 H2] H E. apply (files_distinct vr_ops e repr H1 H2 f stamp path g format up rez mx vert names E). unfold rezs_of. destruct rez; [apply NoDup_singleton|].
  eapply rezs_history; [|exact H]. apply NoDup_nil_2.
Qed.
Print Assumptions C107_vr_distinct.
(** All files lie in the folder of the path and begin with its name without extension and '_'. *)
Theorem C107_beside {T} (O : tile_ops T) e repr f stamp path g format up rez mx vert names n : name_repr repr -> name_stamp stamp -> (path_split path).2 <> "" ->
  export_names O e repr f stamp path g format up rez mx vert = Ok names -> n ∈ names ->
  exists folder s, parts path = folder ++ [(path_split path).2] /\ parts n = folder ++ [(splitext (path_split path).2).1 +:+ "_" +:+ s].
Proof.
  intros [H1 H2] [H3 H4] Hp E Hn. destruct (files_beside O e repr H1 H2 f stamp path g format up rez mx vert names Hp H3 E n Hn) as (ds & stem & s & E1 & E2 & _ & G1 & G2).
  destruct (stat f path) eqn:Es.
  - rewrite E2, (G2 ltac:(discriminate) H4). exists ds, (stamp +:+ "_" +:+ s). split; [done|]. do 2 f_equal. apply chars_inj. rewrite !chars_app, <- !app_assoc. done.
  - destruct (G1 eq_refl) as (_ & _ & _ & ->). by exists ds, s.
Qed.
Print Assumptions C107_beside.
(** Two chunks as geotiff; a bag with its Caris file; a variable resolution grid. *)
Definition vr_out := vr_run env_s (vr_add (vr_add (create_vr 16 8 false false true) pts_one "one") pts_two "two") mean_4.
Example C107_case :
  export_names sr_ops env_s repr_quarters [] "20210304_101112" "data/out.tif" run_1 "GeoTIFF" true None (Some 16) "" = Ok ["data/out_1.0_1.tif"; "data/out_1.0_2.tif"] /\
  export_names sr_ops env_s repr_quarters [] "20210304_101112" "out" run_1 "bag" true None None "" = Ok ["out_1.0_1.bag"; "out_1.0_1.bag_rxl"] /\
  export_names vr_ops env_s repr_quarters [] "20210304_101112" "data/out.bag" vr_out "bag" true None None "" = Ok ["data/out_1.0_1.bag"; "data/out_1.0_1.bag_rxl"] /\
  parts "data/out.bag" = ["data"; "out.bag"] /\ parts "data/out_1.0_1.bag_rxl" = ["data"; "out_1.0_1.bag_rxl"].
Proof. vm_compute. repeat split. Qed.
Example run_1_history : sr_history env_s 8 false false true run_1 ct_2 (pts_one ++ pts_two) true.
Proof. apply (GH_grid _ _ _ sr_2 _ _ _ mean_4 None). exact sr_2_history. Qed.
