(** The layers of single containers next to the depths of all soundings (C136). *)
From Verif Require Import Py Nd Numpy Point Bin Algorithms Tile Time Meta Disk Grid GridRun GridQuery GridOps Export Spec TileExec GridExec WholeSpec.
Open Scope Z_scope.

(** Asked for the container [c] at resolution [r] with its own sign convention, the grid answers with an array whose cell with
    lower left corner (x, y) holds [v]. *)
Definition container_at {T} (O : tile_ops T) (e : env) (g : grid T) (c : string) (r x y : Z) (v : cell) : Prop :=
  exists X a R C g', m_ext (g_meta g) = Some X /\
    g_get_layers_by_name O e g [c] (Some r) None (m_positive_up (g_meta g)) = Ok (g', Some [a]) /\
    x = x0 X + Z.of_nat C * r /\ y = y0 X + Z.of_nat R * r /\ nd_get a R C = Some v.
(** The names of the containers are not names of layers. *)
Definition plain_names (ct : content) : Prop := Forall (fun cd => cd.1 ∉ float_layers ++ slope_layers ++ int_layers) ct.
(** [w] is not below all of the values of some cells and not above all of them; no value if none has one. *)
Definition between_of (l : list cell) (w : cell) : Prop :=
  match w with
  | None => Forall (fun v => v = None) l
  | Some q => (exists a, Some a ∈ l /\ a <= q)%Q /\ (exists b, Some b ∈ l /\ q <= b)%Q
  end.
