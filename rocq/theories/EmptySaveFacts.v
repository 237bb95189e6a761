(** Saving grids that hold no soundings (C138). *)
From Verif Require Import Py Nd Numpy Point Bin Algorithms Tile Time Meta Disk Grid GridRun GridQuery GridOps Export
  Spec TileExec GridExec Store StoreExec PyFacts FsFacts TileStoreFacts GridInvFacts GridRootFacts GridPropFacts GridStoreFacts GridLoadFacts.
Open Scope Z_scope.

Lemma save_exn_spec {T} (m0 : gmeta) rep (g : grid T) ct seen ok : root_inv m0 rep g ct seen ok ->
  save_exn g = if bool_decide (ct = []) then Some AttributeError else None.
Proof.
  intros [B [(H1 & -> & _)|(Hne & lx & ly & nx & ny & a & [P1 P2 P3 P4 P5 P6 P7 P8] & _)]]; unfold save_exn.
  - by rewrite H1.
  - rewrite P4. by rewrite bool_decide_eq_false_2.
Qed.
(** Nothing but the folder of the grid itself is written. *)
Lemma empty_loads {T} (load_one : fs -> res (option T)) (save_one : option T -> list prim) (g : grid T) ge F :
  (forall f, fs_exists f [] = false -> load_one f = Ok None) ->
  g_tiles g = None -> g_geom g = Some ge -> (forall x y, fs_exists F [FFolder (NTile x y)] = false) ->
  let g1 := g <| g_disk := true |> in
  exists g', load_grid load_one (fs_run F (save_grid g1 ++ save_tiles g1 save_one)) = Ok g' /\ g_geom g' = g_geom g /\ g_meta g' = loaded_meta (g_meta g) /\
    forall x y t, ~ has_tile g' x y t.
Proof.
  intros HN Ht Hg HF g1. assert (E : save_tiles g1 save_one = []) by (unfold save_tiles; cbn; by rewrite Ht). rewrite E, app_nil_r.
  destruct (load_grid_rel load_one (fun _ _ => True) g1 (fs_run F (save_grid g1)) (g_meta g1) ge) as (g' & H1 & H2 & H3 & _ & _ & [_ H4]).
  - exact Hg.
  - by apply save_grid_stored.
  - intros k x y _. assert (En : tile_at g1 k = None) by (unfold tile_at; cbn; by rewrite Ht). exists None. rewrite En. split; [|done]. apply HN. rewrite save_grid_folders, exists_fsub. apply HF.
  - exists g'. split; [exact H1|]. split; [exact H2|]. split; [exact H3|]. intros x y t Hh. destruct (H4 x y t Hh) as (t0 & k & _ & Hk).
    unfold tile_at in Hk. cbn in Hk. by rewrite Ht in Hk.
Qed.
