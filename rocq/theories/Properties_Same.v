(** Property C94: the layers of a grid depend only on the soundings it holds. *)
From Coq Require Import Lqa.
From Verif Require Import Py Nd Numpy Point Bin Algorithms Tile Time Meta Disk Grid GridRun GridQuery GridOps Export
  Spec TileExec GridExec WholeSpec SameSpec Samples GridSamples GridFlagFacts GridWholeFacts GridContainerFacts GridSameFacts Properties_Whole.
Open Scope Z_scope.

Lemma gridded_settled e alg r ct T (O : tile_ops T) g :
  alg = "mean" \/ alg = "shoalest" -> 0 < r -> ct <> [] -> gridded e alg r ct T O g -> settled O e alg r (all_points ct) g.
Proof.
  intros Halg Hr Hne [size zarr disk g0 a dask g' Hs Hm H Ha Hu Hx Hq|size sub zarr disk g0 a dask g' Hs Hsub Hm1 Hm2 H Ha Hu Hx Hq].
  - destruct (C88_sr e alg r size false zarr disk g0 ct a dask g' Halg Hs H Hne Ha Hu Hx Hr Hm Hq) as [D1 D2].
    assert (HC : sr_clean e known_args size false zarr disk g' ct) by (destruct (simple_cases _ Halg) as [sa ->]; by apply (sr_after e sa r a dask ct Ha Hu size false zarr disk g0 g')).
    split; [done|exact (sr_lattice e size false zarr disk g' ct r Hs Hr Hm HC Hne)|].
    destruct (D2 (m_positive_up (g_meta g'))) as (E1 & E2 & E3).
    intros l [->|[->|[(-> & M & V)|(-> & M & V)]]]; [exact D1|exact E1|exact (E2 M V)|exact (E3 M V)].
  - destruct (C88_vr e alg r size sub false zarr disk g0 ct a dask g' Halg Hs Hsub H Hne Ha Hu Hx Hr Hm1 Hm2 Hq) as [D1 D2].
    assert (HC : vr_clean e known_args size sub false zarr disk g' ct) by (destruct (simple_cases _ Halg) as [sa ->]; by apply (vr_after e sa r a dask ct Ha Hu size sub false zarr disk g0 g')).
    split; [done|exact (vr_lattice e size sub false zarr disk g' ct r Hs Hsub Hr (mod_trans _ _ _ Hsub Hr Hm1 Hm2) HC Hne)|].
    destruct (D2 (m_positive_up (g_meta g'))) as (E1 & E2 & E3).
    intros l [->|[->|[(-> & M & V)|(-> & M & V)]]]; [exact D1|exact E1|exact (E2 M V)|exact (E3 M V)].
Qed.

(** ** C94 *)
(** Two grids, each single or variable resolution, with any tile sizes and histories, that hold the same soundings in any
    order and were gridded alike: cells with the same corner have the same value. *)
Theorem C94_same e alg r ct1 ct2 T1 (O1 : tile_ops T1) g1 T2 (O2 : tile_ops T2) g2 l x y v w :
  alg = "mean" \/ alg = "shoalest" -> 0 < r -> ct1 <> [] -> ct2 <> [] -> all_points ct1 ≡ₚ all_points ct2 ->
  gridded e alg r ct1 T1 O1 g1 -> gridded e alg r ct2 T2 O2 g2 -> kept_layer e alg l ->
  cell_at O1 e g1 l r x y v -> cell_at O2 e g2 l r x y w -> same_cell v w.
Proof.
  intros Halg Hr N1 N2 Hp G1 G2 Hl. apply (settled_same O1 O2 e alg r (all_points ct1) (all_points ct2) g1 g2 l x y v w); [| |exact Hp|exact Hl]; by apply gridded_settled.
Qed.
(** The cells of all such grids lie on the same lattice, so no two overlap in part. *)
Theorem C94_lattice e alg r ct T (O : tile_ops T) g l x y v :
  alg = "mean" \/ alg = "shoalest" -> 0 < r -> ct <> [] -> gridded e alg r ct T O g -> kept_layer e alg l ->
  cell_at O e g l r x y v -> x mod r = 0 /\ y mod r = 0.
Proof. intros Halg Hr Hne G Hl H. by destruct (settled_cell O e alg r _ g l (gridded_settled e alg r ct T O g Halg Hr Hne G) Hl x y v H). Qed.
(** A cell that only one of the two grids has holds no value, or density 0. *)
Theorem C94_extra e alg r ct1 ct2 T1 (O1 : tile_ops T1) g1 T2 (O2 : tile_ops T2) g2 l x y v :
  alg = "mean" \/ alg = "shoalest" -> 0 < r -> ct1 <> [] -> ct2 <> [] -> all_points ct1 ≡ₚ all_points ct2 ->
  gridded e alg r ct1 T1 O1 g1 -> gridded e alg r ct2 T2 O2 g2 -> kept_layer e alg l ->
  cell_at O1 e g1 l r x y v -> (forall w, ~ cell_at O2 e g2 l r x y w) -> v = if bool_decide (l = "density") then Some 0%Q else None.
Proof.
  intros Halg Hr N1 N2 Hp G1 G2 Hl. apply (settled_extra O1 O2 e alg r (all_points ct1) (all_points ct2) g1 g2 l x y v); [| |exact Hp|exact Hl]; by apply gridded_settled.
Qed.
Print Assumptions C94_same.
Print Assumptions C94_lattice.
Print Assumptions C94_extra.
(** The same two containers, in a single resolution grid with tiles of side 8 and, in the other order, in a variable
    resolution grid with tiles of side 16. *)
Definition swap_1 := vr_add (create_vr 16 8 false false true) pts_two "two".
Definition swap_2 := vr_add swap_1 pts_one "one".
Definition swap_run := vr_run env_s swap_2 mean_4.
Example C94_case :
  gridded env_s "mean" 4 ct_2 tile sr_ops (st_of (g_grid sr_ops env_s sr_2 mean_4 None)) /\
  gridded env_s "mean" 4 [("two", pts_two); ("one", pts_one)] sr_grid vr_ops (st_of (g_grid vr_ops env_s swap_2 mean_4 None)) /\
  cell_at sr_ops env_s (sr_run env_s sr_2 mean_4) "depth" 4 (-4) (-8) (Some 5%Q) /\
  cell_at vr_ops env_s swap_run "depth" 4 (-4) (-8) (Some 5%Q) /\
  cell_at vr_ops env_s swap_run "depth" 4 (-16) (-16) None.
Proof.
  split; [|split; [|split; [|split]]].
  - apply (Gridded_sr _ _ _ _ 8 false true sr_2 mean_4 None); [lia|reflexivity|apply sr_2_clean|split; reflexivity|intros E; discriminate E|vm_compute; reflexivity|apply Q_none].
  - apply (Gridded_vr _ _ _ _ 16 8 false true swap_2 mean_4 None); [lia|lia|reflexivity|reflexivity| |split; reflexivity|intros E; discriminate E|vm_compute; reflexivity|apply Q_none].
    apply (CH_add _ _ _ _ swap_1 [("two", pts_two)] pts_one (args_of "one")); [|by vm_compute].
    apply (CH_add _ _ _ _ (create_vr 16 8 false false true) [] pts_two (args_of "two")); [apply CH_new|by vm_compute].
  - unfold cell_at. eexists (Ext (-8) (-8) 24 16), _, 0%nat, 1%nat. split; [vm_compute; reflexivity|]. split; [vm_compute; reflexivity|]. split; [reflexivity|]. split; [reflexivity|]. vm_compute. reflexivity.
  - unfold cell_at. eexists (Ext (-16) (-16) 32 32), _, 2%nat, 3%nat. split; [vm_compute; reflexivity|]. split; [vm_compute; reflexivity|]. split; [reflexivity|]. split; [reflexivity|]. vm_compute. reflexivity.
  - unfold cell_at. eexists (Ext (-16) (-16) 32 32), _, 0%nat, 0%nat. split; [vm_compute; reflexivity|]. split; [vm_compute; reflexivity|]. split; [reflexivity|]. split; [reflexivity|]. vm_compute. reflexivity.
Qed.
