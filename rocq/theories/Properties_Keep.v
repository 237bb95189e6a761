(** What queries and exports change: C105. *)
From Verif Require Import Py Nd Numpy Point Bin Algorithms Tile Meta Grid GridRun GridQuery GridOps Export Views Spec TileExec GridExec KeepSpec GridKeepFacts Samples GridSamples.
Open Scope Z_scope.

(** ** C105 *)
(** Asking for a name that is no layer, here a misspelt one, stores a layer of that name; it is listed and exported from then on. *)
Definition asked : sr_grid := match g_get_layers_by_name sr_ops env_s run_1 ["dpth"] None None true with Ok (g, _) => g | Raise _ => run_1 end.
Theorem C105_queries_keep_refuted : exists e g ls g' n n',
  queried sr_ops e g ls g' /\ g_return_layer_names sr_ops g = Ok n /\ g_return_layer_names sr_ops g' = Ok n' /\ n' = n ++ ["dpth"] /\
  exists f f' : csv_file, (exists h, export_csv sr_ops e g true None = Ok (h, [f])) /\ (exists h, export_csv sr_ops e g' true None = Ok (h, [f'])) /\
    cf_names f' = cf_names f ++ ["dpth"].
Proof.
  exists env_s, run_1, ["dpth"], asked, ["depth"; "density"; "vertical_uncertainty"; "horizontal_uncertainty"],
    ["depth"; "density"; "vertical_uncertainty"; "horizontal_uncertainty"; "dpth"].
  split; [eapply (Q_layers _ _ _ _ None None true); vm_compute; reflexivity|]. split; [vm_compute; reflexivity|]. split; [vm_compute; reflexivity|]. split; [reflexivity|].
  eexists. eexists. split; [eexists; vm_compute; reflexivity|]. split; [eexists; vm_compute; reflexivity|]. reflexivity.
Qed.
Print Assumptions C105_queries_keep_refuted.

(** Apart from layers that gridding does not make, nothing changes: not the soundings, the gridded layers, the metadata, the files. *)
Theorem C105_sr_partial e g ls g' : queried sr_ops e g ls g' -> same_but extra_layers g g'.
Proof. apply queried_keep; [apply extra_refl|apply extra_trans|]. intros t l r nd up t' o E. exact (extra_query _ _ _ _ _ _ _ _ E). Qed.
Print Assumptions C105_sr_partial.
Theorem C105_vr_partial e g ls g' : queried vr_ops e g ls g' -> same_but (same_but extra_layers) g g'.
Proof.
  apply queried_keep; [intros t; apply (keep_refl _ extra_refl)|intros a b c; apply (keep_trans _ extra_trans)|].
  intros t l r nd up t' o E. eapply (sub_query sr_ops e extra_layers (fun _ => True) extra_refl extra_trans); [|exact I|exact E].
  intros t0 l0 r0 nd0 up0 t0' o0 _ E0. exact (extra_query _ _ _ _ _ _ _ _ E0).
Qed.
Print Assumptions C105_vr_partial.
(** Queries for layers that gridding makes, and all exports but csv files of other layers, change nothing at all. *)
Theorem C105_sr_layers_partial e g ls g' : queried sr_ops e g ls g' -> Forall (fun l => l ∈ gridded_layers) ls -> g' = g.
Proof. intros H HL. apply (queried_same sr_ops e g ls g'); [|done..]. intros t l r nd up t' o Hl E. exact (same_query _ _ _ _ _ _ _ _ Hl E). Qed.
Print Assumptions C105_sr_layers_partial.
Theorem C105_vr_layers_partial e g ls g' : queried vr_ops e g ls g' -> Forall (fun l => l ∈ gridded_layers) ls -> g' = g.
Proof.
  intros H HL. apply (queried_same vr_ops e g ls g'); [|done..]. intros t l r nd up t' o Hl E. symmetry. apply same_eq.
  eapply (sub_query sr_ops e eq (fun l => l ∈ gridded_layers)); [done|congruence| |exact Hl|exact E].
  intros t0 l0 r0 nd0 up0 t0' o0 Hl0 E0. exact (same_query _ _ _ _ _ _ _ _ Hl0 E0).
Qed.
Print Assumptions C105_vr_layers_partial.
(** A query of two layers, a geotiff and a csv file of a gridded grid leave it as it was; a query of a container adds to it. *)
Definition asked_one : sr_grid := match g_get_layers_by_name sr_ops env_s run_1 ["two"] None None true with Ok (g, _) => g | Raise _ => run_1 end.
Example C105_sr_case : queried sr_ops env_s run_1 ["depth"; "density"] run_1 /\ queried sr_ops env_s run_1 [] run_1 /\
  queried sr_ops env_s run_1 ["depth"; "density"; "vertical_uncertainty"; "horizontal_uncertainty"] run_1 /\
  queried sr_ops env_s run_1 ["two"] asked_one /\ g_return_layer_names sr_ops asked_one <> g_return_layer_names sr_ops run_1.
Proof.
  split; [eapply (Q_layers _ _ _ _ None None true); vm_compute; reflexivity|]. split; [eapply (Q_geotiff _ _ _ true None None); vm_compute; reflexivity|].
  split; [eapply (Q_csv _ _ _ true None); vm_compute; reflexivity|]. split; [eapply (Q_layers _ _ _ _ None None true); vm_compute; reflexivity|].
  vm_compute. discriminate.
Qed.
Definition vr_kept := vr_run env_s (vr_add (vr_add (create_vr 16 8 false false true) pts_one "one") pts_two "two") mean_4.
Definition vr_asked : vr_grid := match g_get_layers_by_name vr_ops env_s vr_kept ["two"] None None true with Ok (g, _) => g | Raise _ => vr_kept end.
Example C105_vr_case : queried vr_ops env_s vr_kept ["depth"] vr_kept /\ queried vr_ops env_s vr_kept ["two"] vr_asked /\ vr_asked <> vr_kept.
Proof.
  split; [eapply (Q_layers _ _ _ _ None None true); vm_compute; reflexivity|]. split; [eapply (Q_layers _ _ _ _ None None true); vm_compute; reflexivity|].
  intros H. apply (f_equal (g_return_layer_names vr_ops)) in H. vm_compute in H. discriminate.
Qed.
