(** What removing a container should do to the tiles (C135). *)
From Verif Require Import Py Nd Numpy Point Bin Algorithms Tile Time Meta Disk Grid GridRun GridQuery GridOps Spec GridExec.
Open Scope Z_scope.

(** The soundings of container [c]. *)
Definition of_container (ct : content) (c : string) : list point := all_points (filter (fun cp => cp.1 = c) ct).
(** [t'] is [t] without the soundings of [c], so that [rest] are left; only the slope layers, which are derived from the soundings, may be
    dropped. *)
Definition lost (t : tile) (c : string) (rest : list point) (t' : tile) : Prop :=
  t_min_x t' = t_min_x t /\ t_min_y t' = t_min_y t /\ t_size t' = t_size t /\
  t_backscatter t' = t_backscatter t /\ t_algorithm t' = t_algorithm t /\ t_changed t' = true /\
  t_data t' = Some rest /\ dkeys (t_container t') = filter (fun c' => c' <> c) (dkeys (t_container t)) /\
  forall r name, name ∉ ["x_slope"; "y_slope"] -> layer_of t' r name = layer_of t r name.
(** The tiles of [g] and of [g'], which is [g] without [c]; [gone] and [rest] are the soundings of [c] and the others in the square with
    lower left corner (x, y). [loses] says what becomes of a tile that has soundings of both. *)
Record removed {T} (g g' : grid T) (gone rest : Z -> Z -> list point) (loses : Z -> Z -> T -> T -> Prop) : Prop := {
  rm_geom : g_geom g' = g_geom g;
  rm_ext : m_ext (g_meta g') = m_ext (g_meta g);
  rm_no_new : forall x y t', has_tile g' x y t' -> exists t, has_tile g x y t;
  rm_other : forall x y t, has_tile g x y t -> gone x y = [] -> has_tile g' x y t;
  rm_last : forall x y t', rest x y = [] -> ~ has_tile g' x y t';
  rm_part : forall x y t, has_tile g x y t -> gone x y <> [] -> rest x y <> [] -> exists t', has_tile g' x y t' /\ loses x y t t' }.
