(** The names of the files that export() writes (bgrid.py:2192-2382). *)
From Coq Require Import Ascii.
From stdpp Require Import pretty.
From Verif Require Import Py Nd Numpy Point Tile Meta Grid GridQuery Export Views Convenience.
Open Scope Z_scope.

(** os.path.splitext: the last '.' of the name and what follows, unless only '.' precede it in the name. Both functions read the
    path from its end. *)
Definition dot : ascii := "."%char.
Fixpoint find_dot (l : list ascii) : option (list ascii * list ascii) :=
  match l with
  | [] => None
  | c :: r => if Ascii.eqb c slash then None
              else if Ascii.eqb c dot then Some ([c], r)
              else match find_dot r with Some (a, b) => Some (c :: a, b) | None => None end
  end.
Fixpoint only_dots (l : list ascii) : bool :=
  match l with
  | [] => true
  | c :: r => Ascii.eqb c slash || (Ascii.eqb c dot && only_dots r)
  end.
Definition splitext (s : string) : string * string :=
  match find_dot (reverse (list_ascii_of_string s)) with
  | Some (a, b) => if only_dots b then (s, "") else (string_of_list_ascii (reverse b), string_of_list_ascii (reverse a))
  | None => (s, "")
  end.

(** bgrid.py:2213-2217. [stamp] is the text of the current time. *)
Definition export_path (f : tfs) (stamp path : string) : string :=
  match stat f path with
  | None => path
  | Some _ => let folder := (path_split path).1 in
              let name := splitext (path_split path).2 in
              path_join folder (name.1 +:+ "_" +:+ stamp +:+ name.2)
  end.

Section names.
  (** [repr] is the text of a resolution. *)
  Context {T : Type} (O : tile_ops T) (e : env) (repr : Z -> string).
  (** bgrid.py:2250 *)
  Definition csv_name (base : string) (c : csv_file) : string := base +:+ "_" +:+ repr (cf_rez c) +:+ ".csv".
  (** bgrid.py:2312 and 2376 *)
  Definition raster_name (base ext : string) (r : raster_file) : string :=
    base +:+ "_" +:+ repr (rf_rez r) +:+ "_" +:+ pretty (N.of_nat (rf_chunk r)) +:+ ext.
  (** bgrid.py:2376-2381 and 2081: a bag and its Caris file. Simplification: the Caris file is always written. *)
  Definition bag_names (base : string) (b : bag_file) : list string :=
    let name := raster_name base ".bag" (bf_raster b) in [name; (splitext name).1 +:+ ".bag_rxl"].

  (** bgrid.py:2192-2229: the files written by export(), in order. Simplifications: folders that do not exist or may not be
      written are not modelled, nor files that GDAL writes beside its own. *)
  Definition export_names (f : tfs) (stamp path : string) (g : grid T) (format : string) (up : bool) (rez max_chunk : option Z)
      (vert_crs : string) : res (list string) :=
    let base := (splitext (export_path f stamp path)).1 in
    let fmt := str_lower format in
    if bool_decide (fmt = "csv") then let* r := export_csv O e g up rez in Ok (map (csv_name base) r.2)
    else if bool_decide (fmt = "geotiff") then let* r := export_geotiff O e g up rez max_chunk in Ok (map (raster_name base ".tif") r.2)
    else if bool_decide (fmt = "bag") then
      if m_backscatter (g_meta g) then Raise ValueError
      else let* r := export_bag O e g rez max_chunk vert_crs in Ok (concat (map (bag_names base) r.2))
    else Raise ValueError.
End names.
