(** A loaded grid answers queries like the saved grid: C131, and gives the same chunks to exports: C132. *)
From Verif Require Import Py Nd Numpy Point Bin Algorithms Tile Time Meta Disk Grid GridRun GridQuery GridOps Export Views Spec GridExec Store StoreExec SessionSpec
  LoadAnswerSpec Samples GridSamples GridSessionFacts GridOwnFacts GridVrSessionFacts LoadAnswerFacts Properties_GridStore Properties_Sessions Properties_VrSessions Properties_OwnFolder.
Open Scope Z_scope.
Local Ltac known := intros; by split.

(** ** C131 *)
(** A grid with any history, with any number of sessions, saved to a folder with any content. *)
Theorem C131_sr e size b zarr g ct F :
  0 < size -> sr_sessions e known_args size b zarr g ct -> ct <> [] ->
  exists g', load_sr (fs_run F (ev_of (save_sr_to g))) = Ok g' /\ same_answers_of sr_ops e g g'.
Proof.
  intros Hs H Hne. assert (HP : forall a, known_args a -> asked None a) by known.
  destruct (sr_saved_alike e size b zarr g ct F Hs (sessions_inv e None known_args size b zarr Hs HP g ct H) Hne) as (g' & L1 & L2 & L3).
  exists g'. split; [done|]. by apply alike_answers.
Qed.
(** For variable resolution, when the folder has no sub-grid at a place where the grid has none (see C77). *)
Theorem C131_vr e size sub b zarr g ct F :
  0 < size -> 0 < sub -> vr_sessions e known_args size sub b zarr g ct -> ct <> [] ->
  (forall k x y, origin_at g k = Some (x, y) -> tile_at g k = None -> fs_exists F [FFolder (NTile x y)] = false) ->
  exists g', load_vr (fs_run F (ev_of (save_vr_to g))) = Ok g' /\ same_answers_of vr_ops e g g'.
Proof.
  intros Hs Hsub H Hne HF. assert (HP : forall a, known_args a -> asked None a) by known.
  destruct (vr_saved_alike e size sub b zarr g ct F Hs Hsub (vr_sessions_inv e None known_args size sub b zarr Hs Hsub HP g ct H) Hne HF) as (g' & L1 & L2 & L3).
  exists g'. split; [done|]. by apply alike_answers.
Qed.
(** A grid with an output folder, loaded from it after any of its calls. *)
Theorem C131_own e size b zarr g f ct :
  0 < size -> own_sessions e known_args size b zarr g f ct -> ct <> [] ->
  exists g', load_sr f = Ok g' /\ same_answers_of sr_ops e g g'.
Proof.
  intros Hs H Hne. assert (HP : forall a, known_args a -> asked None a) by known.
  destruct (own_alike e size b zarr g f ct Hs (own_sessions_inv e None known_args size b zarr Hs HP g f ct H) Hne) as (g' & L1 & L2 & L3).
  exists g'. split; [done|]. by apply alike_answers.
Qed.

(** ** C132 *)
Theorem C132_sr e size b zarr g ct F :
  0 < size -> sr_sessions e known_args size b zarr g ct -> ct <> [] ->
  exists g', load_sr (fs_run F (ev_of (save_sr_to g))) = Ok g' /\ same_chunks_of sr_ops e g g'.
Proof.
  intros Hs H Hne. assert (HP : forall a, known_args a -> asked None a) by known.
  destruct (sr_saved_alike e size b zarr g ct F Hs (sessions_inv e None known_args size b zarr Hs HP g ct H) Hne) as (g' & L1 & L2 & L3).
  exists g'. split; [done|]. by apply alike_answers.
Qed.
Theorem C132_vr e size sub b zarr g ct F :
  0 < size -> 0 < sub -> vr_sessions e known_args size sub b zarr g ct -> ct <> [] ->
  (forall k x y, origin_at g k = Some (x, y) -> tile_at g k = None -> fs_exists F [FFolder (NTile x y)] = false) ->
  exists g', load_vr (fs_run F (ev_of (save_vr_to g))) = Ok g' /\ same_chunks_of vr_ops e g g'.
Proof.
  intros Hs Hsub H Hne HF. assert (HP : forall a, known_args a -> asked None a) by known.
  destruct (vr_saved_alike e size sub b zarr g ct F Hs Hsub (vr_sessions_inv e None known_args size sub b zarr Hs Hsub HP g ct H) Hne HF) as (g' & L1 & L2 & L3).
  exists g'. split; [done|]. by apply alike_answers.
Qed.
Theorem C132_own e size b zarr g f ct :
  0 < size -> own_sessions e known_args size b zarr g f ct -> ct <> [] ->
  exists g', load_sr f = Ok g' /\ same_chunks_of sr_ops e g g'.
Proof.
  intros Hs H Hne. assert (HP : forall a, known_args a -> asked None a) by known.
  destruct (own_alike e size b zarr g f ct Hs (own_sessions_inv e None known_args size b zarr Hs HP g f ct H) Hne) as (g' & L1 & L2 & L3).
  exists g'. split; [done|]. by apply alike_answers.
Qed.
Print Assumptions C131_sr.
Print Assumptions C131_vr.
Print Assumptions C131_own.
Print Assumptions C132_sr.
Print Assumptions C132_vr.
Print Assumptions C132_own.

(** The variable resolution grid of C112 after its second session, and the grid of C113 loaded from its folder: they have depths, and
    chunks, which are those of the grids they were loaded from. *)
Definition chunks_in {T} (O : tile_ops T) (e : env) (g : grid T) : option (list (option (Z * Z * Z) * dict string arr)) :=
  match g_get_chunks_of_tiles O e g 4 ["depth"; "density"] None false (Some 16) true with Ok (_, l) => Some l | Raise _ => None end.
Example C131_case : vdepth_of env_s vday_2 = vdepth_of env_s vday_1 /\ vdepth_of env_s vday_2 <> None /\
  g_layer_values_at_xy sr_ops env_s own_2 [1; 5] [1; 5] "depth" None None = Ok (own_2, match g_layer_values_at_xy sr_ops env_s (st_of steps_3) [1; 5] [1; 5] "depth" None None with Ok p => p.2 | Raise _ => [] end) /\
  g_get_layers_by_name sr_ops env_s own_2 ["total_uncertainty"] (Some 4) None false = Raise ValueError.
Proof. split; [vm_compute; reflexivity|]. split; [vm_compute; discriminate|]. split; vm_compute; reflexivity. Qed.
Example C132_case : chunks_in vr_ops env_s vday_2 = chunks_in vr_ops env_s vday_1 /\ option_map (@length _) (chunks_in vr_ops env_s vday_1) = Some 2%nat /\
  chunks_in sr_ops env_s own_2 = chunks_in sr_ops env_s (st_of steps_3) /\ chunks_in sr_ops env_s own_2 <> Some [] /\ chunks_in sr_ops env_s own_2 <> None.
Proof. split; [vm_compute; reflexivity|]. split; [vm_compute; reflexivity|]. split; [vm_compute; reflexivity|]. split; vm_compute; discriminate. Qed.
