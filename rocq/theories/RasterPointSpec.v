(** What exported rasters say of the soundings (C127). *)
From Verif Require Import Py Nd Numpy Point Bin Algorithms Tile Time Meta Disk Grid GridRun GridQuery GridOps Export Spec TileExec GridExec WholeSpec.
Open Scope Z_scope.

(** The soundings in the square of a pixel. *)
Definition pixel_points (q : Z * Z * Z) (k c : nat) (d : list point) : list point := filter (fun p => in_pixel q k c (px p) (py p)) d.
(** The value written where there are no soundings. *)
Definition no_sounding : cell := Some 1000000%Q.
(** The rasters [fs] for cells of side [r], with a band for each of the layers [ls], gridded with [alg] from the soundings [d].
    [flip]: depths have the other sign than the soundings. *)
Definition rasters_of_points (alg : string) (r : Z) (flip : bool) (d : list point) (ls : list string) (fs : list raster_file) : Prop :=
  (* every pixel of every file shows what the soundings in its square say *)
  (forall f, f ∈ fs -> rf_rez f = r /\ length (rf_bands f) = length ls /\ exists q, rf_geo f = Some q /\ q.1.2 = r /\
     forall j l band, ls !! j = Some l -> rf_bands f !! j = Some band ->
       (0 < nrows band)%nat /\ (0 < ncols band)%nat /\ length (nflat band) = (nrows band * ncols band)%nat /\
       forall k c v, nd_get band k c = Some v ->
       (l = "depth" -> exists w, depth_by alg (pixel_points q k c d) w /\ exported_as flip no_sounding w v) /\
       (l = "vertical_uncertainty" -> exists w, mean_cell (map ptvu (pixel_points q k c d)) w /\ exported_as false no_sounding w v)) /\
  (* every sounding is in the square of a pixel with a value, in every band *)
  (forall p j l, p ∈ d -> ls !! j = Some l -> exists f q band k c v, f ∈ fs /\ rf_geo f = Some q /\ rf_bands f !! j = Some band /\
     in_pixel q k c (px p) (py p) /\ nd_get band k c = Some v /\ v <> no_sounding).
(** Soundings that cannot be taken for the value of empty pixels. *)
Definition plausible (p : point) : Prop := (-999999 <= pz p <= 999999)%Q /\ (-999999 <= ptvu p <= 999999)%Q.

(** ** C128 *)
(** No place is in two pixels of the rasters [ps], given as their geotransforms and bands: neither in two pixels of one raster nor in pixels of two rasters. *)
Definition one_pixel (ps : list (option (Z * Z * Z) * list arr)) : Prop :=
  forall x y i j p p' q q' band band' k c k' c', ps !! i = Some p -> ps !! j = Some p' -> p.1 = Some q -> p'.1 = Some q' -> band ∈ p.2 -> band' ∈ p'.2 ->
    is_Some (nd_get band k c) -> is_Some (nd_get band' k' c') -> in_pixel q k c x y -> in_pixel q' k' c' x y -> i = j /\ k = k' /\ c = c'.
(** Where raster files say their pixels are. *)
Definition placed_bands (f : raster_file) : option (Z * Z * Z) * list arr := (rf_geo f, rf_bands f).
