(** The lines of csv files: C116. *)
From Verif Require Import Py Nd Numpy Point Bin Algorithms Tile Time Meta Disk Grid GridRun GridQuery GridOps Export Spec TileExec GridExec CsvSpec Samples GridSamples
  GridHistFacts CsvLineFacts Properties_Grid.
Open Scope Z_scope.

(** ** C116 *)
(** After any history: the file for a resolution lists what a query for all layers at that resolution returns. *)
Theorem C116_lines_sr e size b zarr disk g ct seen ok up r g1 fs :
  0 < size -> sr_history e size b zarr disk g ct seen ok -> ct <> [] -> 0 < r -> export_csv sr_ops e g up (Some r) = Ok (g1, fs) ->
  exists x ls full f, m_ext (g_meta g) = Some x /\ g_return_layer_names sr_ops g = Ok ls /\
    g_get_layers_by_name sr_ops e g ls (Some r) None false = Ok (g1, Some full) /\ fs = [f] /\ csv_lists (g_meta g) x r up ls full f.
Proof.
  intros Hs H Hne Hr Hc. destruct (root_sized _ _ _ _ _ _ (sr_inv e size b zarr disk Hs _ _ _ _ H) Hne) as (x & H1 & H2 & H3).
  destruct (csv_file_of sr_ops e g up r x g1 fs Hr H1 H2 H3 Hc) as (ls & full & f & Hf). exists x, ls, full, f. split; [exact H1|exact Hf].
Qed.
Theorem C116_lines_vr e size sub b zarr disk g ct seen ok up r g1 fs :
  0 < size -> 0 < sub -> vr_history e size sub b zarr disk g ct seen ok -> ct <> [] -> 0 < r -> export_csv vr_ops e g up (Some r) = Ok (g1, fs) ->
  exists x ls full f, m_ext (g_meta g) = Some x /\ g_return_layer_names vr_ops g = Ok ls /\
    g_get_layers_by_name vr_ops e g ls (Some r) None false = Ok (g1, Some full) /\ fs = [f] /\ csv_lists (g_meta g) x r up ls full f.
Proof.
  intros Hs Hb H Hne Hr Hc. destruct (root_sized _ _ _ _ _ _ (vr_inv e size sub b zarr disk Hs Hb _ _ _ _ H) Hne) as (x & H1 & H2 & H3).
  destruct (csv_file_of vr_ops e g up r x g1 fs Hr H1 H2 H3 Hc) as (ls & full & f & Hf). exists x, ls, full, f. split; [exact H1|exact Hf].
Qed.
(** One file for the resolution asked for, or for every resolution of the grid. *)
Theorem C116_files {T} (O : tile_ops T) e (g : grid T) up rez g1 fs : export_csv O e g up rez = Ok (g1, fs) ->
  map cf_rez fs = match rez with Some r => [r] | None => m_rezs (g_meta g) end.
Proof. apply csv_rezs. Qed.
(** The rectangle of the values has four rows of five cells; only five of them hold soundings, the others are listed as NaN. *)
Example C116_case : sr_history env_s 8 false false true run_1 ct_2 (pts_one ++ pts_two) true /\ exists g1 f first,
  export_csv sr_ops env_s run_1 true (Some 4) = Ok (g1, [f]) /\ cf_names f = ["x"; "y"; "elevation"; "density"; "vertical_uncertainty"; "horizontal_uncertainty"] /\
  length (cf_lines f) = 20%nat /\ cf_lines f !! 0%nat = Some first /\ (first.1.1 == -2)%Q /\ (first.1.2 == -6)%Q /\ first.2 = [Some (-5)%Q; Some 1%Q; Some 1%Q; Some 1%Q] /\
  length (List.filter (fun c : Q * Q * list cell => match c.2 with None :: _ => true | _ => false end) (cf_lines f)) = 15%nat.
Proof.
  split; [apply (GH_grid _ _ _ sr_2 _ _ _ mean_4 None); exact sr_2_history|]. eexists _, _, _. split; [vm_compute; reflexivity|].
  split; [reflexivity|]. split; [reflexivity|]. split; [reflexivity|]. split; [reflexivity|]. split; [reflexivity|]. split; reflexivity.
Qed.

Print Assumptions C116_lines_sr.
Print Assumptions C116_lines_vr.
Print Assumptions C116_files.
