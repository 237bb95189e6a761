# bathygrid: machine-checked model

Subject: `noaa-ocs-hydrography/bathygrid` 1.3.11 (source in `/repo`, read as text only).
Prover: Rocq/Coq 8.16.1 with std++, coq-record-update and (one file) Flocq.

## 1. How the code is modelled

* **Shallow, executable, branch by branch.** Every Python function in scope is one
  total Gallina function. Exceptions are values (`Raise e`); where an
  exception can leave the object half-modified the function returns the state *and* the
  exception.
* **Numbers.** Coordinates, tile sizes and resolutions are integers `Z` counting *ticks*.
  Every finite binary64 number is an integer multiple of 2^-1074, so all inputs of a run are
  represented exactly by taking a small enough tick; floor, ceiling, comparison, addition and
  multiplication are then exact. What is *not* modelled in the main development is the rounding
  of intermediate float results. For the extent computation this gap is closed separately
  (C73, `FloatExtents.v`, Flocq binary64). Soundings' z/tvu/thu and layer values are rationals `Q`
  (canonical form); sums and means are exact and rounding to 3 decimals is round-half-even
  (`np.round`). NaN in layers is `None`; NaN/inf inputs are not modelled.
* **Arrays.** A 2-D numpy array is a record (rows, cols, flat row-major buffer); `ravel()`
  views are the flat buffer. Dicts are insertion-ordered association lists.
* **numpy primitives** (`arange`, `searchsorted`, `argsort`, `unique`, `reduceat`,
  `unravel_index`, boolean-mask assignment, `array_split`, `digitize`, `round`) are modelled by
  small functions with the documented semantics, in `Numpy.v`.
* **Two levels with one proof.** `BathyGrid` is written once, generically in its tile type through a
  record of tile operations (Python duck typing); SR grids instantiate it with `SRTile`, VR grids
  with `BathyGrid` of `SRTile`. Laws are proved once from the tile laws and instantiated twice.
* **External code** (CUBE engine, `lstsq`, clock, file-system failures, worker count) is an
  argument of the model; theorems quantify over it.
* **Disk.** A finite map from (folder, entry) to contents; saves are sequences of atomic
  remove/write steps, so crash points are prefixes.

Specifications (`Spec.v` and the heads of the `Properties_*.v` files) speak only of points, squares, containers
and observable attributes; they do not call the model's helpers.

## 2. Trusted base

* The Coq 8.16.1 kernel.
* What `Print Assumptions` prints under each theorem (recorded in section 5).
* The fidelity of the hand-written model to the cited lines (each definition carries the
  file:line it models and its simplifications).

## 3. Not modelled

Rounding, except in the separate floating point model of C73 and C90-C93 (extents, cell edges, georeference, means
and minima of a cell); NaN/inf inputs; dask scheduling
(only the batching logic is modelled); plotting; BAG/GeoTIFF byte formats (only the arrays and geotransforms given
to the writers); progress bars; `time_trials.py`.

## 4. Plan per property

| id | what is modelled | how proved |
|----|------------------|-----------|
| C01-C03 | `bin2d_with_indices` | exact characterisation by induction on edges; partition lemma; C03: counterexample + the part that holds |
| C04-C07, C11, C12, C15 | `_adjust_extents`, `_build_grid`, `_update_tiles`, `_add_points_to_tiles`, `add_points`, `remove_points` | representation invariant relating the tile array to a list of (container, points); preserved by each operation; induction on the operation list; generic in the tile |
| C08, C27, C48, C49 | guard order in `add_points`/`grid`/`_update_metadata` | case analysis returning the state with the exception; C49 refuted |
| C09, C10 | `SRTile.add_points/remove_points` | refinement to an ordered association list |
| C13, C14 | extents | refuted by witness; exact growth law proved |
| C16-C21, C28, C29, C71 | `np_grid_mean`, `np_grid_shoalest`, `SRTile.grid`, index cache | cell-wise characterisation of sort/unique/reduceat; cache invariant over operation lists; C18, C29 refuted |
| C22-C26 | `_grid_regular`, `_grid_parallel` | invariant linking change flag and layers; loop/batch equivalence by induction; C23, C24, C26 refuted |
| C30-C34 | `is_power_of_two`, lookups, density search, mean depth | arithmetic; loop variant for the `while True`; C30/C31/C34 full statements refuted, true parts proved |
| C35, C36, C37-C41, C45, C47, C74, C88, C89 | layer queries | mosaic lemma (array slice assignment) composed with the gridding theorem |
| C42-C44 | chunking and export arrays | `array_split` partition by induction; index algebra for flip/transpose; C43 refuted |
| C45 (tile), C46, C69, C72 | container query, neighbours, cube, slopes | oracle-quantified characterisation |
| C50-C53 | metadata | calendar arithmetic; list induction; C53 refuted |
| C54-C61 | save/load | round-trip lemmas on the disk map; coupled invariant memory/disk; crash = prefix of steps; C57, C58, C60 refuted |
| C62-C66 | folders, dispatch, retries, index arithmetic | case analysis / induction |
| C67, C68, C70 | VR backscatter, csv sign, no_grid | refuted by witness; true part proved |
| C73 | `_adjust_extents` in binary64 | Flocq, exactness of scaling by powers of two and of floor/ceil |

| C75-C77 | `remove_points`, `save`, loading a folder saved over another | reachable states of the tile array; disk map; all three refuted with the true part proved |
| C78 | `create_grid` with a folder | file-system map, all paths; refuted in four ways |
| C79-C81, C83, C85 | attributes and queries in `Views.v` | tile invariant (array shapes, columns), mosaic lemma, loop equivalence |
| C82 | `get_tile_boundaries` | line of points as a list; segments of every tile square; refuted (one tile too far) |
| C84 | `_validate_input_data` | case analysis; refuted |
| C86, C87 | `_export_bag` beyond the arrays | vertical reference text, recorded ranges; C86 refuted |
| C90-C93 | geotransform in float32, `np_grid_mean`, `np_grid_shoalest` and `new_grid` in floating point | Flocq; sums in any order (multiples of a unit are exact, relative error otherwise); C90-C92 refuted in general |
| C94 | two grids with the same soundings | both reduce to the soundings of a lattice cell (C88); values of permuted soundings are equal |
| C95 | gridding with clear_existing after any calls | invariant of points, cell indices and edges kept by every call, failed or not (`sound`); clearing forgets the rest |
| C96 | a failed grid() | refuted; what every call keeps, from the evolution of tiles |
| C97 | border points of variable resolution tiles | refuted; exact result from the placement of tiles and sub-tiles, splitting points by sub-tile |
| C98 | variable resolution grids and cube | refuted; returns exactly when neighbouring sub-grids are full, from C97 and the totality of sub-grids |
| C99-C102 | `grid()` without a resolution | what each tile chooses, from the tile loop and the tile theorems C31, C32; totality from powers of two in the table; C100, C101 refuted |
| C103, C104 | the soundings CUBE gets in whole grids | the border strips (C46, C97) joined with the tile theorem C69 and the save and reload of layers; C104 refuted |
| C105 | what queries and exports change | every fold over tiles relates the tiles before and after by a preorder (GridKeepFacts), instantiated with "more layers of other names" and with equality; refuted as stated |
| C106, C107 | the names of exported files | `os.path.split`, `join`, `splitext` on lists of characters; C106 refuted |
| C108, C112 | grids saved, loaded and worked on again, any number of times | the invariant of the tiles (C108) and of the sub-grids (C112) survives loading; an explicit save before each loading |
| C113 | grids continued from their own output folder, without `save()` | coupled invariant of memory and folder kept by add, remove, grid and load; refuted (the folder has no number of tiles after the first batch: `number_of_tiles` is None in the loaded grid, and removing or gridding in parallel raises TypeError); holds whenever the recorded number is current |
| C114 | vertical references of successive add_points calls | relation "goes with" kept by every call; refuted for the state after a refused call and for grids that start without a reference |
| C115 | densities per square metre | counts of populated cells times the area; sums to the number of soundings |
| C116 | lines of csv files | list of lines is a permutation of the cells of the value box, with all layers of the query |
| C117-C121 | two grids with related soundings | by the characterisation of cells in C94 (`settled_cell`): inclusion, union over sub-cells, translation of the soundings; rounding is monotone and commutes with offsets of 0.002 |
| C122 | resolution by density | the counted cells are the populated coarse cells; a weighted mean lies between the bounds of its terms; searchsorted on the table |
| C123 | bands and times of exported rasters | invariant of the loop over resolutions; titles listed as a relation |
| C124 | lines of csv files and soundings | C116 gives the cells of the answers, C94 what the cells hold; several layers in one query agree with one query each |
| C125 | names of layers | gridding that clears replaces all keys; keys of the layers through every assignment; the loop of return_layer_names |
| C126 | vertical reference of a BAG | sorted lists of positions with the same members are equal; texts off the way to the times stay |
| C127 | pixels of exported rasters | the answer for one layer with nodata and sign changed cell by cell; chunks of tiles (C44); means and minima of bounded soundings are bounded |
| C128 | exported rasters do not overlap | blocks of tiles are disjoint; the box of a chunk lies in its block; from pixels to tiles by division |
| C129 | grids of parts and of all soundings | cells say what the soundings in their square say (C94); sums of lists put together, rounding is monotone |
| C130 | cells depend on their soundings only | cells say what the soundings in their square say (C94) |
| C131, C132 | queries and chunks of a loaded grid | grids whose tiles answer alike answer alike, proved for every query by following both executions at once; loaded tiles have the stored layers (C77, C112, C113) |
| C133, C134 | exports of a loaded grid | the order in which layers are read back; exports follow queries, both executions at once (C131); csv refuted for CUBE in memory |
| C135 | tiles after a removal | the loop over the tiles acts on each location by itself; soundings of a container in a square and the containers of the tile (C05, C10) |
| C136 | container layers and depths | the answers of C45 for each container; the least and the mean of joined lists; rounding is monotone |
| C137 | cell_count of whole grids | each tile counts the squares in it (C47); squares with soundings fall in one tile each because r divides the tile size; finite sets of squares |
| C138 | saving empty grids | root invariant: the tiles are None exactly without soundings; only the folder of the grid is written, so nothing is in the tile folders |
| C139 | coverage_area of single and variable resolution grids | C47 for each tile (subtile) with the one resolution that is left after clearing; squares as in C137; rounding is exact on whole thousandths |
| C140 | extents of grids that are only added to | induction over the calls: one call moves each upper side at most one tile beyond the maximum of its old place and the soundings |
| C141 | cell_count and coverage_area of grids with more soundings | C137, C139; the squares with soundings of a union |
| C109 | times put into the metadata document of a BAG | elements as positions; the elements added form a chain; text changes commute |
| C110 | both times in one TimePeriod | refuted; holds if no element on the way occurs twice |
| C111 | text of the Caris file | escaping and reading are inverse; ASCII, no carriage return |
| C29 (whole grids) | `grid()` with an unknown name | totality of the tile loop from the tile result of C29; no layer at the resolution; recorded name refuses other algorithms |

Properties that turn out false of the code are kept as stated; the development then proves
`..._refuted` (a concrete reachable counterexample) and a `..._partial` theorem for the largest part that holds.

## 5. What Print Assumptions lists

Every `Properties_*.v` file ends with `Print Assumptions` for each of its theorems.

* All theorems outside `Properties_Float.v` and `Properties_FloatLayers.v`: "Closed under the global context" (no axioms).
* The C73 and C90-C93 theorems in `Properties_Float.v` and `Properties_FloatLayers.v` use Flocq over the real numbers of the standard library and list only
  axioms of the standard library: `ClassicalDedekindReals.sig_not_dec`, `ClassicalDedekindReals.sig_forall_dec`,
  `FunctionalExtensionality.functional_extensionality_dep`, `Classical_Prop.classic`.

The development declares no axioms, parameters or section-less variables, leaves no proof open, and uses no
functors, module types or plugins.

## 6. Files in `rocq/theories`

| files | content |
|-------|---------|
| `Py`, `Nd`, `Numpy` | exceptions as values, dicts, 2-D arrays, numpy functions |
| `Point`, `Bin`, `Algorithms` | soundings, `utilities.py` binning, `algorithms.py` |
| `Tile`, `Grid`, `GridRun`, `GridQuery`, `GridOps`, `Meta`, `Time` | `tile.py`, `grids.py`, `bgrid.py`, `maingrid.py` without files |
| `Export`, `ExportNames`, `BagXml`, `BagWkt`, `Views` | csv, GeoTIFF and BAG export, names of the files, metadata document and Caris file of a BAG, other attributes and queries |
| `Disk`, `Store`, `Names`, `Convenience` | `backends.py`, folder names, `convenience.py`, folder functions of `utilities.py` |
| `FloatExtents`, `FloatLayers` | extents, cell edges, georeference and layer values in binary32 and binary64 |
| `Spec`, `TileExec`, `GridExec`, `StoreExec`, `FolderSpec`, `ViewsSpec`, `WholeSpec`, `SameSpec`, `BorderSpec`, `AutoSpec`, `CubeSpec`, `KeepSpec`, `FilesSpec`, `SessionSpec`, `XmlSpec` | words of the statements: executions, histories, what a layer should hold |
| `*Facts` | lemmas |
| `Samples`, `GridSamples` | concrete data for the examples |
| `Properties_*` | the theorems, with examples |

The theorems speak about executions: `tile_history`, `sr_history`, `vr_history` (any sequence of `add_points`,
`remove_points`, `grid` and queries with any arguments, including calls that raise) and `sr_clean`, `vr_clean`
(the same with the stated kind of gridding calls, none of which raised).

## 7. Which Python functions are modelled

All functions of `algorithms.py`, `convenience.py`, `maingrid.py`, `grids.py` and `tile.py` are modelled with these exceptions;
of the other files the functions below are not modelled:

| not modelled | why |
|--------------|-----|
| `BathyGrid.__repr__`, `OperationalGrid.__repr__`, `plot*`, `print_progress_bar` | text and pictures for people |
| `BathyGrid._build_empty_tile_space`, base-class stubs of `BathyGrid` and `BaseStorage` | never run: overridden |
| `VRTile`, `SRTile.resolution_by_density_old` beyond C32, `time_trials.py` | not used by the package |
| `BaseGrid._init_from_extents` | part of `_update_base_grid` in the model |
| `_numpygrid_todask`, `_zarrgrid_todask`, `_load_tile_data_to_memory` | the same arrays, lazily loaded or copied |
| `BaseStorage._clear_tile_contents` | not called |
| `return_bag_vertical_wkt` | the search of the metadata document is modelled (`BagWkt`); reading the file and pyproj are not |
| `_generate_caris_rxl`, `_set_temporal_extents` | the tree of elements and the text of the coordinate system are modelled (`BagXml`); h5py, the bytes of the metadata document, characters above 127 and the conversion of times given as numbers are not |
| `_correct_for_layer_metadata` | only the numbers put into it |
| `dask_find_or_start_client`, `pyproj_crs_to_osgeo`, `crs_to_osgeo`, `return_gdal_version` | dask, pyproj, gdal |
| writers of npy, zarr, json, GeoTIFF, BAG | what is written is modelled, not its bytes |

`_tile_idx_to_row_col` is used as division with remainder (`k / cols`, `k mod cols`).
