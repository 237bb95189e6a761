(** convenience.py and the folder handling of utilities.py. *)
From Coq Require Import Ascii.
From Verif Require Import Py Nd Numpy Point Bin Algorithms Tile Time Meta Disk Grid GridRun GridOps Store.
Open Scope Z_scope.

(** ** Paths and folders *)
(** The part of the file system that create_folder and create_grid look at: the entries by the list of the
    names on their path. Simplifications: '.', '..' and links are not resolved; a name that is too long or a
    folder that may not be written is not modelled; NotADirectoryError is the OSError [EnvironmentError]. *)
Inductive tnode := TDir | TFile (content : string).
Notation tfs := (dict (list string) tnode).

Definition slash : ascii := "/"%char.
Fixpoint split_slash (cur l : list ascii) : list (list ascii) :=
  match l with
  | [] => [cur]
  | c :: r => if Ascii.eqb c slash then cur :: split_slash [] r else split_slash (cur ++ [c]) r
  end.
(** The names on a path given as text; the first name of an absolute path is '/'. *)
Definition absolute (s : string) : bool :=
  match list_ascii_of_string s with c :: _ => Ascii.eqb c slash | [] => false end.
Definition parts (s : string) : list string :=
  (if absolute s then ["/"] else []) ++
  map string_of_list_ascii (filter (fun l => l <> []) (split_slash [] (list_ascii_of_string s))).

(** The current folder and '/' exist. *)
Definition look (f : tfs) (p : list string) : option tnode :=
  if decide (p = [] \/ p = ["/"]) then Some TDir else dget f p.
(** os.path.exists and os.path.isdir ask for this; the empty text is no path. *)
Definition stat (f : tfs) (s : string) : option tnode := if decide (s = "") then None else look f (parts s).

(** os.mkdir *)
Definition mkdir_at (f : tfs) (p : list string) : tfs * option exn :=
  match look f p with
  | Some _ => (f, Some FileExistsError)
  | None => match look f (removelast p) with
            | Some TDir => (dset f p TDir, None)
            | Some (TFile _) => (f, Some EnvironmentError)
            | None => (f, Some FileNotFoundError)
            end
  end.
Definition mkdir (f : tfs) (s : string) : tfs * option exn :=
  if decide (s = "") then (f, Some FileNotFoundError) else mkdir_at f (parts s).

(** os.makedirs(exist_ok=True) on the names in reverse order: missing parents first, and an error of mkdir
    is ignored when the folder is there. *)
Fixpoint makedirs_rev (f : tfs) (rp : list string) : tfs * option exn :=
  match rp with
  | [] => (f, None)
  | _ :: up =>
      let '(f1, x) := match look f (reverse up) with Some _ => (f, None) | None => makedirs_rev f up end in
      match x with
      | Some y => if decide (y = FileExistsError) then
                    let '(f2, z) := mkdir_at f1 (reverse rp) in
                    (f2, match look f2 (reverse rp) with Some TDir => None | _ => z end)
                  else (f1, Some y)
      | None => let '(f2, z) := mkdir_at f1 (reverse rp) in
                (f2, match look f2 (reverse rp) with Some TDir => None | _ => z end)
      end
  end.
Definition makedirs (f : tfs) (s : string) : tfs * option exn :=
  if decide (s = "") then (f, Some FileNotFoundError) else makedirs_rev f (reverse (parts s)).

(** os.listdir *)
Definition entry_of (p q : list string) : option string :=
  match reverse q with
  | n :: rp => if bool_decide (reverse rp = p) then Some n else None
  | [] => None
  end.
Definition listdir (f : tfs) (s : string) : res (list string) :=
  match stat f s with
  | None => Raise FileNotFoundError
  | Some (TFile _) => Raise EnvironmentError
  | Some TDir => Ok (omap (entry_of (parts s)) (dkeys f))
  end.

(** os.path.join *)
Definition ends_slash (s : string) : bool :=
  match reverse (list_ascii_of_string s) with c :: _ => Ascii.eqb c slash | [] => false end.
Definition path_join (a b : string) : string :=
  if absolute b then b else if bool_decide (a = "") || ends_slash a then a +:+ b else a +:+ "/" +:+ b.
(** os.path.split *)
Fixpoint drop_slashes (l : list ascii) : list ascii :=
  match l with c :: r => if Ascii.eqb c slash then drop_slashes r else l | [] => [] end.
Fixpoint take_name (l : list ascii) : list ascii * list ascii :=
  match l with
  | c :: r => if Ascii.eqb c slash then ([], l) else let '(a, b) := take_name r in (c :: a, b)
  | [] => ([], [])
  end.
Definition path_split (s : string) : string * string :=
  let '(tail, head) := take_name (reverse (list_ascii_of_string s)) in
  let stripped := drop_slashes head in
  (string_of_list_ascii (reverse (match stripped with [] => head | _ => stripped end)), string_of_list_ascii (reverse tail)).

(** utilities.py:70-100; [stamp] is the text of the current time. *)
Definition create_folder (f : tfs) (dir name stamp : string) : tfs * res string :=
  match makedirs f dir with
  | (f1, Some x) => (f1, Raise x)
  | (f1, None) =>
      let p := path_join dir name in
      match mkdir f1 p with
      | (f2, None) => (f2, Ok p)
      | (f2, Some FileExistsError) =>
          match listdir f2 p with
          | Raise x => (f2, Raise x)
          | Ok [] => (f2, Ok p)
          | Ok _ =>
              let p2 := path_join dir (name +:+ "_" +:+ stamp) in
              match mkdir f2 p2 with (f3, None) => (f3, Ok p2) | (f3, Some x) => (f3, Raise x) end
          end
      | (f2, Some x) => (f2, Raise x)
      end
  end.

(** utilities.py:389-407. [rm k] is the k-th call of rmtree: what it leaves and the error it raises. [k] calls
    have been made, [left] attempts remain; the last one calls rmtree again after a PermissionError. The
    result also has the number of calls. Simplification: the waiting time is not modelled. *)
Fixpoint rm_loop (rm : nat -> tfs -> tfs * option exn) (f : tfs) (k left : nat) : tfs * nat * option exn :=
  match left with
  | O => (f, k, None)
  | S left' =>
      match rm k f with
      | (f1, Some PermissionError) =>
          match left' with
          | O => let '(f2, x) := rm (S k) f1 in (f2, S (S k), x)
          | S _ => rm_loop rm f1 (S k) left'
          end
      | (f1, x) => (f1, S k, x)
      end
  end.
Definition remove_with_permissionserror (rm : nat -> tfs -> tfs * option exn) (f : tfs) (path : string) (retries : Z)
    : tfs * nat * option exn :=
  match stat f path with None => (f, 0%nat, None) | Some _ => rm_loop rm f 0 (Z.to_nat retries) end.

(** ** create_grid and load_grid *)
(** grid_variables.py:21 *)
Definition root_names : list string := ["SRGrid_Root"; "VRGridTile_Root"; "SRGridZarr_Root"; "VRGridTileZarr_Root"].
(** convenience.py:26-35 *)
Definition pick_root (names : list string) : res string :=
  if decide (names = []) then Raise EnvironmentError
  else match filter (fun n => n ∈ root_names) names with
       | [n] => Ok n
       | _ => Raise EnvironmentError
       end.
(** convenience.py:8-35: the root folder and its name. IOError is EnvironmentError. *)
Definition validate_load_path (f : tfs) (folder : string) : res (string * string) :=
  match stat f folder with
  | None => Raise EnvironmentError
  | Some _ =>
      let* names := listdir f folder in
      let* n := pick_root names in
      Ok (path_join folder n, n)
  end.
(** convenience.py:56-72 *)
Definition is_bathygrid (f : tfs) (folder : string) : bool :=
  match stat f folder with
  | Some TDir => match listdir f folder with Ok names => existsb (fun n => bool_decide (n ∈ root_names)) names | Raise _ => false end
  | _ => false
  end.

(** convenience.py:46-53; lengths are in ticks. *)
Definition check_options (e : env) (grid_type grid_backend : string) (tile_size subtile_size : Z) : res unit :=
  if negb (bool_decide (grid_type ∈ ["single_resolution"; "variable_resolution_tile"])) then Raise ValueError
  else if negb (bool_decide (grid_backend ∈ ["numpy"; "zarr"])) then Raise ValueError
  else if negb (is_power_of_two (metres e tile_size)) then Raise ValueError
  else if bool_decide (grid_type = "variable_resolution_tile") && negb (is_power_of_two (metres e subtile_size)) then Raise ValueError
  else Ok tt.
(** convenience.py:38-54: the folder is made before the options are checked. *)
Definition validate_create_options (e : env) (f : tfs) (folder stamp grid_type grid_backend : string) (tile_size subtile_size : Z)
    : tfs * res string :=
  let '(f1, r) := if decide (folder = "") then (f, Ok "")
                  else let '(fpath, name) := path_split folder in create_folder f fpath name stamp in
  (f1, let* p := r in let* _ := check_options e grid_type grid_backend tile_size subtile_size in Ok p).

(** The classes of maingrid.py. *)
Inductive gclass := SRGrid | VRGridTile | SRGridZarr | VRGridTileZarr.
Inductive gobj := SrObj (g : sr_grid) | VrObj (g : vr_grid).
Definition obj_meta (o : gobj) : gmeta := match o with SrObj g => g_meta g | VrObj g => g_meta g end.

(** convenience.py:107-148: the folders afterwards, and the class, the object and its output folder. An
    output folder already exists when the constructor asks for it (maingrid.py:18, 76). *)
Definition create_grid (e : env) (f : tfs) (folder stamp grid_type grid_backend : string) (tile_size subtile_size : Z)
    (is_backscatter : bool) : tfs * res (gclass * gobj * string) :=
  let '(f1, r) := validate_create_options e f folder stamp grid_type grid_backend tile_size subtile_size in
  (f1,
   let* p := r in
   let disk := negb (bool_decide (p = "")) in
   if decide (grid_type = "single_resolution") then
     if decide (grid_backend = "numpy") then Ok (SRGrid, SrObj (create_sr tile_size is_backscatter false disk), p)
     else Ok (SRGridZarr, SrObj (create_sr tile_size is_backscatter true disk), p)
   else if decide (grid_type = "variable_resolution_tile") then
     if decide (grid_backend = "numpy") then Ok (VRGridTile, VrObj (create_vr tile_size subtile_size is_backscatter false disk), p)
     else Ok (VRGridTileZarr, VrObj (create_vr tile_size subtile_size is_backscatter true disk), p)
   else Raise NotImplementedError).

(** backends.py:246-275: the steps of save(path) in the container folder [path]. The name of the root folder
    is that of the grid; a missing sub-grid clears the folder of its name in the container folder (271-273). *)
Definition save_to (o : gobj) : list prim :=
  match o with
  | SrObj g => prims_in (FFolder (m_name (g_meta g))) (ev_of (save_sr_to g))
  | VrObj g =>
      concat (imap (fun k t => match t, origin_at g k with
                               | None, Some (x, y) => [PRm [FFolder (NTile x y)]] | _, _ => [] end)
                   (match g_tiles g with Some a => nflat a | None => [] end)) ++
      prims_in (FFolder (m_name (g_meta g))) (ev_of (save_vr_to g))
  end.
Definition save_to_exn (o : gobj) : option exn :=
  match o with SrObj g => exn_of (save_sr_to g) | VrObj g => exn_of (save_vr_to g) end.

(** The entries of the container folder that can be root folders; the other entries of [fs] have other
    names (Names.v). *)
Definition root_entries (f : fs) : list string :=
  omap (fun n => match n with FFolder (NRoot s) => Some s | _ => None end) (fs_listdir f []).
(** convenience.py:93-100 *)
Definition class_of_root (name : string) : res gclass :=
  if decide (name = "SRGrid_Root") then Ok SRGrid
  else if decide (name = "VRGridTile_Root") then Ok VRGridTile
  else if decide (name = "SRGridZarr_Root") then Ok SRGridZarr
  else if decide (name = "VRGridTileZarr_Root") then Ok VRGridTileZarr
  else Raise NotImplementedError.
(** convenience.py:75-104 on the content of the container folder; the stored sub_type decides between tiles
    and sub-grids (backends.py:332). *)
Definition load_grid_from (f : fs) : res (gclass * gobj) :=
  let* name := pick_root (root_entries f) in
  let* cls := class_of_root name in
  let root := fsub f (FFolder (NRoot name)) in
  if negb (fs_exists root []) then Raise ValueError else
  match fs_read root [FMeta] with
  | Some (LGridMeta m) =>
      if m_sub_is_tile m then let* g := load_sr root in Ok (cls, SrObj g)
      else let* g := load_vr root in Ok (cls, VrObj g)
  | _ => Raise EnvironmentError
  end.
