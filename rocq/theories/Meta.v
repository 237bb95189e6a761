(** The attributes of a BathyGrid other than its tiles and geometry arrays, and how add_points
    updates them (bgrid.py:31-60, 345-432). *)
From Coq Require Import Ascii.
From Verif Require Import Py Nd Numpy Point Bin Algorithms Tile Time.
Open Scope Z_scope.

(** min_x, min_y, max_x, max_y (grids.py:9-16): all None or all set. *)
Record ext := Ext { x0 : Z; y0 : Z; x1 : Z; y1 : Z }.

(** The folder name of a grid or tile: a root name such as 'SRGrid_Root', or '{x}_{y}'
    (bgrid.py:652-653). The text of the latter is modelled in Names.v. *)
Inductive gname := NRoot (s : string) | NTile (x y : Z).
Global Instance gname_eq_dec : EqDecision gname.
Proof. solve_decision. Defined.

(** The grid_resolution attribute (bgrid.py:55, 1500-1509): '', the given value, or 'AUTO_...'. *)
Inductive grid_rez := RezUnset | RezGiven (r : Z) | RezAuto (mode : string).

(** grids.py:24-47, bgrid.py:31-60, maingrid.py: the attributes written to metadata.json
    (grid_variables.py bathygrid_desired_keys), without the arrays, output_folder and version. *)
Record gmeta := GMeta {
  m_origin_x : Z; m_origin_y : Z; m_tile_size : Z; m_subtile_size : Z; m_can_grow : bool;
  m_backscatter : bool; m_name : gname; m_sub_is_tile : bool; m_zarr : bool;
  m_ext : option ext; m_width : option Z; m_height : option Z;
  m_max_tiles : option nat; m_ntiles : option Z;
  m_container : dict string (list string); m_timestamp : dict string string;
  m_mean_depth : Q; m_epsg : option Z; m_vref : option string;
  m_min_time : string; m_max_time : string;
  m_rezs : list Z; m_algorithm : string; m_grez : grid_rez; m_params : option params }.
Global Instance eta_gmeta : Settable _ :=
  settable! GMeta <m_origin_x; m_origin_y; m_tile_size; m_subtile_size; m_can_grow; m_backscatter;
                   m_name; m_sub_is_tile; m_zarr; m_ext; m_width; m_height; m_max_tiles; m_ntiles;
                   m_container; m_timestamp; m_mean_depth; m_epsg; m_vref; m_min_time; m_max_time;
                   m_rezs; m_algorithm; m_grez; m_params>.

(** bgrid.py:31-60, grids.py:24-47: a new grid object. *)
Definition new_meta (ox oy tile_size subtile_size : Z) (can_grow backscatter : bool) (name : gname)
    (sub_is_tile zarr : bool) (ex : option ext) : gmeta :=
  GMeta ox oy tile_size subtile_size can_grow backscatter name sub_is_tile zarr ex None None None None
    [] [] 0 None None "" "" [] "" RezUnset None.

(** The 'crs' argument: an epsg code, or text that int() rejects (a proj4 string). *)
Inductive crs_arg := CrsCode (code : Z) | CrsText (s : string).
Definition crs_truthy (c : crs_arg) : bool :=
  match c with CrsCode z => negb (z =? 0) | CrsText s => negb (bool_decide (s = "")) end.
Definition crs_int (c : crs_arg) : res Z :=
  match c with CrsCode z => Ok z | CrsText _ => Raise ValueError end.

(** [s.find(pat) != -1] *)
Definition str_has (pat s : string) : bool :=
  match String.index 0 pat s with Some _ => true | None => false end.

(** [int(t)]: truncation. *)
Definition q_trunc (q : Q) : Z := Z.quot (Qnum q) (Zpos (Qden q)).
Definition time_truthy (t : option Q) : option Q :=
  match t with Some q => if Qeq_bool q 0 then None else Some q | None => None end.

(** Arguments of add_points besides the data (bgrid.py:665-667). *)
Record add_args := AddArgs {
  a_container : string; a_files : list string; a_crs : option crs_arg; a_vref : option string;
  a_min_time : option Q; a_max_time : option Q; a_now : string }.

Definition truthy_s (s : option string) : option string :=
  match s with Some s => if bool_decide (s = "") then None else Some s | None => None end.

(** bgrid.py:376-379 *)
Definition check_vref (old new : option string) : res unit :=
  match truthy_s old with
  | None => Ok tt
  | Some v =>
      if bool_decide (new = Some v) then Ok tt
      else if str_has "MLLW" v then
        match new with
        | None => Raise AttributeError
        | Some n => if str_has "MLLW" n then Ok tt else Raise ValueError
        end
      else Raise ValueError
  end.

(** bgrid.py:380-386 (and 387-393 with max). [pick] is min or max. *)
Definition merge_time (pick : Z -> Z -> Z) (old : string) (t : option Q) : res string :=
  match time_truthy t with
  | None => Ok old
  | Some q =>
      if bool_decide (old = "") then utc_seconds_to_formatted_string (q_trunc q)
      else let* o := formatted_string_to_utc_seconds old in
           utc_seconds_to_formatted_string (pick o (q_trunc q))
  end.

Definition truthy_z (z : option Z) : option Z :=
  match z with Some z => if z =? 0 then None else Some z | None => None end.

(** bgrid.py:370-401. Each step that raises leaves the earlier assignments in place. *)
Definition update_metadata (m : gmeta) (a : add_args) : gmeta * option exn :=
  let epsg := match a_crs a with Some c => if crs_truthy c then Some (crs_int c) else None | None => None end in
  let clash := match truthy_z (m_epsg m), epsg with
               | Some _, Some (Raise x) => Some x
               | Some z, Some (Ok n) => if z =? n then None else Some ValueError
               | _, _ => None
               end in
  match clash with
  | Some x => (m, Some x)
  | None =>
      match epsg with
      | Some (Raise x) => (m, Some x)
      | _ =>
          let m1 := match epsg with Some (Ok n) => m <| m_epsg := Some n |> | _ => m end in
          match check_vref (m_vref m1) (a_vref a) with
          | Raise x => (m1, Some x)
          | Ok _ =>
              match merge_time Z.min (m_min_time m1) (a_min_time a) with
              | Raise x => (m1, Some x)
              | Ok mn =>
                  let m2 := m1 <| m_min_time := mn |> in
                  match merge_time Z.max (m_max_time m2) (a_max_time a) with
                  | Raise x => (m2, Some x)
                  | Ok mx =>
                      (m2 <| m_max_time := mx |>
                          <| m_container := dset (m_container m2) (a_container a)
                               (match a_files a with [] => ["Unknown"] | l => l end) |>
                          <| m_timestamp := dset (m_timestamp m2) (a_container a) (a_now a) |>
                          <| m_vref := a_vref a |>, None)
                  end
              end
          end
      end
  end.

(** bgrid.py:403-411: mean z of the points handed to the last add_points, 0 when all are 0. *)
Definition batch_mean_depth (d : list point) : Q :=
  if forallb (fun p => Qeq_bool (pz p) 0) d then 0%Q
  else match qmean (map pz d) with Some q => round3 q | None => 0%Q end.

(** bgrid.py:413-432 *)
Definition m_calculate_resolution_lookup (e : env) (m : gmeta) : res Z :=
  if Qeq_bool (m_mean_depth m) 0 then Raise ValueError
  else Ok (Z.min (m_tile_size m) (rez_ticks e (band_lookup (Some (m_mean_depth m))))).

(** bgrid.py:326-333 *)
Definition m_positive_up (m : gmeta) : bool :=
  match truthy_s (m_vref m) with Some v => str_has "height (h)"",up" v | None => false end.

(** bgrid.py:88-102 *)
Definition m_depth_key (m : gmeta) : string := depth_key_of (m_backscatter m).

(** bgrid.py:1921-1936 *)
Definition m_return_unique_containers (m : gmeta) : list string :=
  foldl (fun acc c => if bool_decide (c ∈ acc) then acc else acc ++ [c]) [] (dkeys (m_container m)).

(** Split at every non-overlapping occurrence of '__' (grids.py:81). *)
Fixpoint split_dunder (cur s : list Ascii.ascii) : list (list Ascii.ascii) :=
  match s with
  | [] => [cur]
  | a :: r =>
      match r with
      | b :: r' => if Ascii.eqb a "_"%char && Ascii.eqb b "_"%char then cur :: split_dunder [] r'
                   else split_dunder (cur ++ [a]) r
      | [] => [cur ++ [a]]
      end
  end.
Definition str_split_dunder (s : string) : list string :=
  map string_of_list_ascii (split_dunder [] (list_ascii_of_string s)).

(** grids.py:70-87 *)
Definition entry_of (k : string) : string :=
  match str_split_dunder k with [a; _] => a | _ => k end.
Definition add_entry (acc : list string) (k : string) : list string :=
  if bool_decide (entry_of k ∈ acc) then acc else acc ++ [entry_of k].
Definition m_unique_container_entries (m : gmeta) : list string :=
  foldl add_entry [] (dkeys (m_container m)).
