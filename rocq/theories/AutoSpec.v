(** Automatic resolutions as documented, in terms of soundings (C99-C101). *)
From Verif Require Import Py Nd Numpy Point Bin Algorithms Tile Time Meta Disk Grid GridRun GridQuery GridOps Spec TileExec GridExec.
Open Scope Z_scope.

(** [r] is the resolution of the depth band of the mean depth of [d], at most [size]. *)
Definition depth_band (e : env) (size : Z) (d : list point) (r : Z) : Prop :=
  exists m v, is_mean (map pz d) m /\ band_for m v /\ r = Z.min size (v * e_tpq e).
(** [r] is [size], or a smaller resolution of the table. *)
Definition table_rez (e : env) (size r : Z) : Prop :=
  r <= size /\ (r = size \/ exists k v, (k, v) ∈ documented_bands /\ r = v * e_tpq e).

(** Every sub-tile of a variable resolution grid holds the soundings there, gridded at a resolution as [W] requires for them, which the
    grid and the sub-grid report. *)
Definition vr_auto (e : env) (alg : string) (size sub : Z) (ct : content) (W : list point -> Z -> Prop) (g : vr_grid) : Prop :=
  forall x y sg j u v, has_tile g x y sg -> origin_at sg j = Some (u, v) ->
  let here := filter (fun p => in_square x y size (px p) (py p) /\ in_square u v sub (px p) (py p)) (all_points ct) in
  match tile_at sg j with
  | Some t => t_data t = Some here /\ here <> [] /\
      exists r, W here r /\ r ∈ m_rezs (g_meta sg) /\ r ∈ m_rezs (g_meta g) /\ reflects e alg r u v sub false here t
  | None => here = []
  end.
(** Every resolution that the grid reports is one of a sub-tile. *)
Definition vr_rezs_used (e : env) (alg : string) (size sub : Z) (ct : content) (W : list point -> Z -> Prop) (g : vr_grid) : Prop :=
  forall r, r ∈ m_rezs (g_meta g) -> exists x y sg j u v t, has_tile g x y sg /\ origin_at sg j = Some (u, v) /\ tile_at sg j = Some t /\
  let here := filter (fun p => in_square x y size (px p) (py p) /\ in_square u v sub (px p) (py p)) (all_points ct) in
  W here r /\ reflects e alg r u v sub false here t.
