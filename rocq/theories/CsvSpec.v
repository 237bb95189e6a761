(** What a csv file should hold. *)
From Verif Require Import Py Nd Numpy Point Bin Algorithms Tile Time Meta Disk Grid GridRun GridQuery GridOps Export Spec TileExec GridExec.
Open Scope Z_scope.

(** The heading of a column. *)
Definition heading (up : bool) (l : string) : string := if up && bool_decide (l = "depth") then "elevation" else l.
(** A value of a layer as it is listed: with [z_positive_up] the depths are negated, when their mean is above zero. *)
Definition listed (m : gmeta) (up : bool) (l : string) (v : cell) : cell :=
  if up && bool_decide (l = "depth") && negb (Qle_bool (m_mean_depth m) 0) then cell_neg v else v.
(** The line of a cell: its centre and the values of all layers. *)
Definition cell_line (m : gmeta) (x : ext) (r : Z) (up : bool) (ls : list string) (full : list arr) (RC : nat * nat) : Q * Q * list cell :=
  ((inject_Z (x0 x + Z.of_nat RC.2 * r) + (r # 2))%Q, (inject_Z (y0 x + Z.of_nat RC.1 * r) + (r # 2))%Q,
   map (fun la => listed m up la.1 (default None (nd_get la.2 RC.1 RC.2))) (zip ls full)).
(** The file for the layers [full] named [ls]: a line for every cell of the smallest rectangle with all values of the first layer.
    The order of the lines is left open, see [csv_lines] in Export.v. *)
Definition csv_lists (m : gmeta) (x : ext) (r : Z) (up : bool) (ls : list string) (full : list arr) (f : csv_file) : Prop :=
  cf_rez f = r /\ cf_names f = "x" :: "y" :: map (heading up) ls /\
  exists first r0 c0 r1 c1, head full = Some first /\ value_box first r0 c0 r1 c1 /\
    Permutation (cf_lines f) (map (cell_line m x r up ls full) (list_prod (seq r0 (r1 - r0)) (seq c0 (c1 - c0)))).
