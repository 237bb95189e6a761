(** Properties of the vertical references given to add_points: C114, and of the sign of soundings (C41). *)
From Verif Require Import Py Nd Numpy Point Bin Algorithms Tile Time Meta Disk Grid GridRun GridQuery GridOps Export
  Spec TileExec GridExec WholeSpec Samples GridSamples PyFacts MetaFacts VrefFacts Properties_GridQuery.
Open Scope Z_scope.

(** ** C114 *)
(** A reference other than the recorded one is refused, unless both name MLLW: no tile, layer, file or container
    changes. (Without a reference, where the recorded one names MLLW, the exception is an AttributeError.) *)
Theorem C114_refused_partial {T} (O : tile_ops T) g inp a v : m_vref (g_meta g) = Some v -> v <> "" -> a_vref a <> Some v ->
  ~ (occurs "MLLW" v /\ exists w, a_vref a = Some w /\ occurs "MLLW" w) ->
  let r := g_add_points O g inp a in
  (exn_of r = Some ValueError \/ (a_vref a = None /\ occurs "MLLW" v /\ exn_of r = Some AttributeError)) /\
  (exists z, st_of r = g <| g_meta := g_meta g <| m_epsg := z |> |>) /\ ev_of r = [].
Proof.
  intros Hm Hv Hne Hno r. destruct (refused O g inp a v Hm Hv) as (H1 & H2 & H3 & _); [|done].
  intros [?|(w & ? & ? & ?)]; [done|]. apply Hno. eauto.
Qed.
(** Nothing at all changes if the grid has an epsg code or the call gives none. *)
Theorem C114_unchanged_partial {T} (O : tile_ops T) g inp a v : m_vref (g_meta g) = Some v -> v <> "" -> a_vref a <> Some v ->
  ~ (occurs "MLLW" v /\ exists w, a_vref a = Some w /\ occurs "MLLW" w) ->
  (forall z, a_crs a = Some (CrsCode z) -> z = 0) \/ (exists z, m_epsg (g_meta g) = Some z /\ z <> 0) ->
  st_of (g_add_points O g inp a) = g.
Proof.
  intros Hm Hv Hne Hno Hc. destruct (refused O g inp a v Hm Hv) as (_ & _ & _ & H); [|apply H].
  - intros [?|(w & ? & ? & ?)]; [done|]. apply Hno. eauto.
  - destruct Hc as [Hc|(z & Hz & Hn)]; [left|right].
    + unfold code_of. destruct (a_crs a) as [[z|]|]; try done. by rewrite (Hc z eq_refl).
    + rewrite Hz. unfold truthy_z. by rewrite (proj2 (Z.eqb_neq z 0) Hn).
Qed.
(** Once a call gave a reference, every later call that returns normally gives the same one, or both name MLLW. *)
Theorem C114_later_partial {T} (O : tile_ops T) e g0 g held done failed i j a b v : add_calls O e g0 g held done failed ->
  done !! i = Some a -> done !! j = Some b -> (i <= j)%nat -> a_vref a = Some v -> v <> "" ->
  a_vref b = Some v \/ exists w, a_vref b = Some w /\ occurs "MLLW" v /\ occurs "MLLW" w.
Proof. intros H. by apply (calls_later O e g0 g held done failed H). Qed.
(** The recorded reference goes with every reference given. *)
Theorem C114_recorded_partial {T} (O : tile_ops T) e g0 g held done failed a v : add_calls O e g0 g held done failed ->
  a ∈ done -> a_vref a = Some v -> v <> "" ->
  m_vref (g_meta g) = Some v \/ exists w, m_vref (g_meta g) = Some w /\ occurs "MLLW" v /\ occurs "MLLW" w.
Proof. intros H. by apply (calls_recorded O e g0 g held done failed H). Qed.

(** Full statement, first part: a refused call changes nothing. It is false: the epsg code of the call is recorded
    before its vertical reference is looked at. *)
Definition vref_1 := AddArgs "one" [] None (Some "ellipse") None None "now".
Definition vref_2 := AddArgs "two" [] (Some (CrsCode 26917)) (Some "waterline") None None "now".
Definition vgrid_1 := st_of (g_add_points sr_ops (create_sr 8 false false true) (GoodData pts_one) vref_1).
Theorem C114_refused_refuted : exists e size g held a d,
  add_calls sr_ops e (create_sr size false false true) g held held [] /\ exn_of (g_add_points sr_ops g (GoodData d) a) = Some ValueError /\
  m_epsg (g_meta g) = None /\ m_epsg (g_meta (st_of (g_add_points sr_ops g (GoodData d) a))) = Some 26917.
Proof.
  exists env_s, 8, vgrid_1, [vref_1], vref_2, pts_two. split.
  - apply (AC_add _ _ _ _ [] [] [] pts_one vref_1); [apply AC_new|vm_compute; reflexivity].
  - split; [vm_compute; reflexivity|]. split; vm_compute; reflexivity.
Qed.
(** Full statement, second part: all soundings in a grid were added with the same reference, or all with one that
    names MLLW. It is false: after soundings without a reference any reference is accepted, and is taken to hold
    for all of them. Here a sounding 10 below the surface, asked for as a depth, becomes -10. *)
Definition vref_up := AddArgs "two" [] None (Some "AXIS[""ellipsoidal height (h)"",up]") None None "now".
Definition down_1 := st_of (g_add_points sr_ops (create_sr 8 false false true) (GoodData [Point 1 1 10 1 1]) (args_of "one")).
Definition down_2 := st_of (g_add_points sr_ops down_1 (GoodData [Point 6 6 (-20) 1 1]) vref_up).
Definition depth_at_0 (g : sr_grid) : option (option cell) :=
  match g_get_layers_by_name sr_ops env_s g ["depth"] (Some 4) None false with Ok (_, Some [a]) => Some (nd_get a 0 0) | _ => None end.
Theorem C114_mixed_refuted : exists e size g a b v,
  add_calls sr_ops e (create_sr size false false true) g [a; b] [a; b] [] /\ a_vref a = None /\ a_vref b = Some v /\ v <> "" /\ m_vref (g_meta g) = Some v.
Proof.
  exists env_s, 8, down_2, (args_of "one"), vref_up, "AXIS[""ellipsoidal height (h)"",up]". split.
  - apply (AC_add _ _ _ down_1 [args_of "one"] [args_of "one"] [] [Point 6 6 (-20) 1 1] vref_up); [|vm_compute; reflexivity].
    apply (AC_add _ _ _ _ [] [] [] [Point 1 1 10 1 1] (args_of "one")); [apply AC_new|vm_compute; reflexivity].
  - split; [reflexivity|]. split; [reflexivity|]. split; [discriminate|vm_compute; reflexivity].
Qed.
Example C114_mixed_case : depth_at_0 (sr_run env_s down_1 mean_4) = Some (Some (Some 10%Q)) /\ depth_at_0 (sr_run env_s down_2 mean_4) = Some (Some (Some (-10)%Q)).
Proof. split; vm_compute; reflexivity. Qed.
(** Two references that name MLLW, and one that does not. *)
Example C114_case :
  let m1 := AddArgs "one" [] None (Some "NOAA MLLW 1") None None "now" in
  let m2 := AddArgs "two" [] None (Some "MLLW 2") None None "now" in
  let g1 := st_of (g_add_points sr_ops (create_sr 8 false false true) (GoodData pts_one) m1) in
  exn_of (g_add_points sr_ops g1 (GoodData pts_two) m2) = None /\ m_vref (g_meta (st_of (g_add_points sr_ops g1 (GoodData pts_two) m2))) = Some "MLLW 2" /\
  exn_of (g_add_points sr_ops g1 (GoodData pts_two) vref_2) = Some ValueError /\ exn_of (g_add_points sr_ops g1 (GoodData pts_two) (args_of "two")) = Some AttributeError.
Proof. cbv zeta. repeat split; vm_compute; reflexivity. Qed.

(** ** C41, the sign of soundings *)
(** Asked for in the direction of the recorded reference (positive up when it names a height axis that points up),
    the depth of a cell is the statistic of its soundings, with their sign; and C41_sr: in the other direction, the
    opposite. *)
Theorem C41_soundings e alg r size b zarr disk g ct a dask up :
  alg = "mean" \/ alg = "shoalest" -> 0 < size -> sr_clean e known_args size b zarr disk g ct -> ct <> [] ->
  only_args alg r a -> (ga_regrid a = "update" -> ga_clear a = true) -> exn_of (g_grid sr_ops e g a dask) = None ->
  0 < r -> size mod r = 0 ->
  let g' := st_of (g_grid sr_ops e g a dask) in
  (up = true <-> exists v, m_vref (g_meta g') = Some v /\ occurs "height (h)"",up" v) ->
  answers e g' (if b then "intensity" else "depth") r up (all_points ct) (depth_by alg).
Proof.
  intros Halg Hs H Hne Ha Hu Hx Hr Hm g' Hup. assert (up = m_positive_up (g_meta g')) as ->.
  { unfold m_positive_up, truthy_s. destruct (m_vref (g_meta g')) as [v|].
    - case_bool_decide as Ev; [|]; apply eq_true_iff_eq; rewrite Hup.
      + split; [|done]. intros (w & Ew & (x & y & E)). rewrite Ev in Ew. injection Ew as <-. by destruct x.
      + rewrite has_occurs. split; [intros (w & [= ->] & ?); done|by eauto].
    - apply not_true_is_false. rewrite Hup. by intros (v & ? & _). }
  by apply (C35_depth e alg r size b zarr disk g ct a dask).
Qed.
Example C41_soundings_case : m_vref (g_meta up_1) = Some "AXIS[""ellipsoidal height (h)"",up]" /\ occurs "height (h)"",up" "AXIS[""ellipsoidal height (h)"",up]".
Proof. split; [vm_compute; reflexivity|]. by exists "AXIS[""ellipsoidal ", "]". Qed.

Print Assumptions C114_refused_partial.
Print Assumptions C114_unchanged_partial.
Print Assumptions C114_later_partial.
Print Assumptions C114_recorded_partial.
Print Assumptions C114_refused_refuted.
Print Assumptions C114_mixed_refuted.
Print Assumptions C41_soundings.
