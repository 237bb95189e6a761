{
 "claims": [
  {
   "property": "C01",
   "status": "proved",
   "theorems": [
    "C01_bin2d"
   ],
   "note": ""
  },
  {
   "property": "C02",
   "status": "proved",
   "theorems": [
    "C02_partition_independent",
    "C02_as_numpy"
   ],
   "note": ""
  },
  {
   "property": "C03",
   "status": "partial",
   "theorems": [
    "C03_outside_rejected_refuted",
    "C03_single_bin_accepts_all",
    "C03_above_rejected_partial"
   ],
   "note": "False as stated: a single bin accepts anything and values below the first edge wrap (C03_outside_rejected_refuted). Proved for values above the last edge with more than one bin."
  },
  {
   "property": "C04",
   "status": "proved",
   "theorems": [
    "C04_sr_points_in_tile",
    "C04_vr_points_in_tile"
   ],
   "note": ""
  },
  {
   "property": "C05",
   "status": "proved",
   "theorems": [
    "C05_sr_soundings",
    "C05_vr_soundings"
   ],
   "note": ""
  },
  {
   "property": "C06",
   "status": "proved",
   "theorems": [
    "C06_sr_count",
    "C06_vr_count"
   ],
   "note": ""
  },
  {
   "property": "C07",
   "status": "proved",
   "theorems": [
    "C07_sr_undo",
    "C07_vr_undo"
   ],
   "note": ""
  },
  {
   "property": "C08",
   "status": "proved",
   "theorems": [
    "C08_sr_duplicate",
    "C08_vr_duplicate"
   ],
   "note": ""
  },
  {
   "property": "C09",
   "status": "proved",
   "theorems": [
    "C09_readd_replaces"
   ],
   "note": ""
  },
  {
   "property": "C10",
   "status": "proved",
   "theorems": [
    "C10_ranges"
   ],
   "note": ""
  },
  {
   "property": "C11",
   "status": "proved",
   "theorems": [
    "C11_sr_growth",
    "C11_vr_growth"
   ],
   "note": ""
  },
  {
   "property": "C12",
   "status": "proved",
   "theorems": [
    "C12_sr_extents",
    "C12_vr_extents",
    "C12_returned_sr",
    "C12_returned_vr"
   ],
   "note": ""
  },
  {
   "property": "C13",
   "status": "partial",
   "theorems": [
    "C13_extents_stable_refuted",
    "C13_sr_extents_partial",
    "C13_vr_extents_partial"
   ],
   "note": "False of the code: each add to a non-empty grid adds a row and a column of tiles (C13_extents_stable_refuted). Proved: exactly that happens."
  },
  {
   "property": "C14",
   "status": "partial",
   "theorems": [
    "C14_origin_refuted",
    "C14_origin_partial"
   ],
   "note": "False for a non-zero origin (C14_origin_refuted). Proved for origin 0, the only one create_grid uses."
  },
  {
   "property": "C15",
   "status": "proved",
   "theorems": [
    "C15_sr_no_empty_tiles",
    "C15_vr_no_empty_tiles"
   ],
   "note": ""
  },
  {
   "property": "C16",
   "status": "proved",
   "theorems": [
    "C16_total",
    "C16_mean"
   ],
   "note": ""
  },
  {
   "property": "C17",
   "status": "proved",
   "theorems": [
    "C17_shoalest"
   ],
   "note": ""
  },
  {
   "property": "C18",
   "status": "partial",
   "theorems": [
    "C18_shoalest_uncertainty_refuted",
    "C18_shoalest_uncertainty_partial"
   ],
   "note": "False of the code (C18_shoalest_uncertainty_refuted). Proved for points stored in strictly ascending z order."
  },
  {
   "property": "C19",
   "status": "proved",
   "theorems": [
    "C19_incremental",
    "C19_incremental_queries",
    "C19_kind_switch_refuted"
   ],
   "note": "C19_kind_switch_refuted is an additional finding, about switching between cube and other algorithms."
  },
  {
   "property": "C20",
   "status": "proved",
   "theorems": [
    "C20_sr_density",
    "C20_sr_one_resolution",
    "C20_tile_density"
   ],
   "note": ""
  },
  {
   "property": "C21",
   "status": "proved",
   "theorems": [
    "C21_point_order",
    "C21_sort_stability"
   ],
   "note": ""
  },
  {
   "property": "C22",
   "status": "partial",
   "theorems": [
    "C22_sr_update_is_full_partial",
    "C22_vr_update_is_full_partial",
    "C22_cube_update_refuted"
   ],
   "note": "Proved for algorithms other than cube, single and variable resolution grids. False for cube: a change in a neighbouring tile is missed (C22_cube_update_refuted)."
  },
  {
   "property": "C23",
   "status": "partial",
   "theorems": [
    "C23_sr_untouched_partial",
    "C23_vr_untouched_partial",
    "C23_sr_layers_partial",
    "C23_update_refuted"
   ],
   "note": "False of the code when a tile holds several resolutions: clear_existing sticks after the first changed tile (C23_update_refuted). Proved: with one resolution the layers of an unchanged tile stay."
  },
  {
   "property": "C24",
   "status": "partial",
   "theorems": [
    "C24_sr_full_partial",
    "C24_vr_full_partial",
    "C24_sr_one_resolution_partial",
    "C24_vr_one_resolution_partial",
    "C24_stale_refuted"
   ],
   "note": "False of the code: a tile unchanged since it was last gridded at another resolution is skipped (C24_stale_refuted). Proved for full regrids and for one resolution."
  },
  {
   "property": "C25",
   "status": "proved",
   "theorems": [
    "C25_sr_parallel",
    "C25_vr_parallel"
   ],
   "note": ""
  },
  {
   "property": "C26",
   "status": "partial",
   "theorems": [
    "C26_vr_cube_partial",
    "C26_sr_cube_partial",
    "C26_cube_refuted"
   ],
   "note": "False of the code when a tenth of a tile is more than three cells (C26_cube_refuted). Proved otherwise for single and variable resolution grids."
  },
  {
   "property": "C27",
   "status": "proved",
   "theorems": [
    "C27_algorithm",
    "C27_sr_after_grid",
    "C27_vr_after_grid"
   ],
   "note": ""
  },
  {
   "property": "C28",
   "status": "proved",
   "theorems": [
    "C28_resolutions"
   ],
   "note": ""
  },
  {
   "property": "C29",
   "status": "partial",
   "theorems": [
    "C29_unknown_algorithm_refuted",
    "C29_unknown_algorithm_partial",
    "C29_sr_accepted_partial",
    "C29_vr_accepted_partial",
    "C29_refused_partial",
    "C29_vr_refused_partial"
   ],
   "note": "False of the code: unknown algorithm names are accepted silently, unless the soundings already have cell numbers at that resolution (C29_unknown_algorithm_partial). For whole grids: the call returns, no tile has a layer, and known algorithms are refused afterwards (C29_sr/vr_accepted_partial); after a successful call with a known algorithm the unknown one is refused unless clear_existing is set (C29_refused_partial)."
  },
  {
   "property": "C30",
   "status": "partial",
   "theorems": [
    "C30_integers",
    "C30_inverse_integers",
    "C30_only_powers_refuted",
    "C30_near_powers_partial"
   ],
   "note": "False outside the integers: numbers within the tolerance of a power of two are accepted (C30_only_powers_refuted). Proved for all integers and reciprocals of integers."
  },
  {
   "property": "C31",
   "status": "partial",
   "theorems": [
    "C31_band_partial",
    "C31_monotone_partial",
    "C31_deep_refuted"
   ],
   "note": "False for mean depths of 20480 m and more (C31_deep_refuted). Proved below."
  },
  {
   "property": "C32",
   "status": "proved",
   "theorems": [
    "C32_sr_coarsest",
    "C32_legal",
    "C32_total"
   ],
   "note": ""
  },
  {
   "property": "C33",
   "status": "proved",
   "theorems": [
    "C33_terminates",
    "C33_tile"
   ],
   "note": ""
  },
  {
   "property": "C34",
   "status": "partial",
   "theorems": [
    "C34_mean_depth_refuted",
    "C34_batch_mean_partial"
   ],
   "note": "False of the code (C34_mean_depth_refuted). Proved: mean_depth is the rounded mean of the last batch added."
  },
  {
   "property": "C35",
   "status": "proved",
   "theorems": [
    "C35_depth",
    "C35_density",
    "C35_uncertainty"
   ],
   "note": ""
  },
  {
   "property": "C36",
   "status": "partial",
   "theorems": [
    "C36_sr_partial",
    "C36_mixed_refuted",
    "C36_vr_partial"
   ],
   "note": "False of the code when a tile has nothing for one of the layers: later layers take its place (C36_mixed_refuted). Proved for single and variable resolution grids where every tile with the resolution has a value in each layer."
  },
  {
   "property": "C37",
   "status": "proved",
   "theorems": [
    "C37_trimmed",
    "C37_returns"
   ],
   "note": ""
  },
  {
   "property": "C38",
   "status": "partial",
   "theorems": [
    "C38_values_partial",
    "C38_sr_partial",
    "C38_last_refuted",
    "C38_layers_sr_partial",
    "C38_layers_vr_partial"
   ],
   "note": "False of the code in the last row and column (C38_last_refuted). Proved everywhere else, and that the last row and column always give NaN; from soundings to values for single and variable resolution grids after any queries (C38_layers_sr_partial, C38_layers_vr_partial)."
  },
  {
   "property": "C39",
   "status": "proved",
   "theorems": [
    "C39_finest"
   ],
   "note": ""
  },
  {
   "property": "C40",
   "status": "partial",
   "theorems": [
    "C40_sr_partial",
    "C40_vr_partial",
    "C40_density_refuted"
   ],
   "note": "False for the density layer, which has no NaN (C40_density_refuted). Proved for the float layers, single and variable resolution grids."
  },
  {
   "property": "C41",
   "status": "proved",
   "theorems": [
    "C41_sr",
    "C41_vr",
    "C41_soundings"
   ],
   "note": ""
  },
  {
   "property": "C42",
   "status": "proved",
   "theorems": [
    "C42_chunks",
    "C42_sr",
    "C42_vr"
   ],
   "note": ""
  },
  {
   "property": "C43",
   "status": "partial",
   "theorems": [
    "C43_partial",
    "C43_refuted"
   ],
   "note": "Refuted: tiles spanning fewer rows than allowed but more columns are put in one chunk (tuples compared lexicographically in _split_to_approx_shape). Proved: the rows always fit, and the columns fit when the tiles span at least the allowed rows or at most the allowed columns."
  },
  {
   "property": "C44",
   "status": "partial",
   "theorems": [
    "C44_sr_partial",
    "C44_vr",
    "C44_points",
    "C44_misplaced_refuted",
    "C44_raises_refuted",
    "C44_vr_points"
   ],
   "note": "Proved for variable resolution grids, for single resolution grids of which every tile has the resolution, and from soundings to pixels for both kinds (C44_vr_points for variable resolution). Refuted for single resolution grids with tiles lacking the resolution: raster misplaced, or TypeError."
  },
  {
   "property": "C45",
   "status": "partial",
   "theorems": [
    "C45_container",
    "C45_ungridded_refuted",
    "C45_cube_refuted",
    "C45_sr",
    "C45_vr",
    "C45_sign_refuted"
   ],
   "note": "False for containers added after gridding and for cube (C45_ungridded_refuted, C45_cube_refuted), and with the wrong sign for a container named Depth in other letters (C45_sign_refuted). Proved for mean and shoalest: freshly gridded tile; whole single and variable resolution grids after gridding and any later queries (C45_sr, C45_vr)."
  },
  {
   "property": "C46",
   "status": "proved",
   "theorems": [
    "C46_border_points"
   ],
   "note": ""
  },
  {
   "property": "C47",
   "status": "proved",
   "theorems": [
    "C47_cell_count",
    "C47_cell_count_vr",
    "C47_coverage",
    "C47_coverage_vr",
    "C47_points",
    "C47_points_vr"
   ],
   "note": "coverage is stated within the rounding of the code (three decimals per tile and resolution); each resolution of a tile is counted"
  },
  {
   "property": "C48",
   "status": "proved",
   "theorems": [
    "C48_clash",
    "C48_one_crs"
   ],
   "note": "stated for every operation table (single and variable resolution) and any calls in between; codes 0 and '' count as not given, as in the code"
  },
  {
   "property": "C49",
   "status": "partial",
   "theorems": [
    "C49_failed_add_refuted",
    "C49_sr_failed_add_partial",
    "C49_vr_failed_add_partial"
   ],
   "note": "False of the code: metadata of a rejected batch stays (C49_failed_add_refuted). Proved: tiles, soundings and extents are untouched."
  },
  {
   "property": "C50",
   "status": "proved",
   "theorems": [
    "C50_min_bounds",
    "C50_max_bounds",
    "C50_least",
    "C50_greatest"
   ],
   "note": "with refused calls in between the recorded time is still a bound; exact least/greatest when no call raised (a refused call may leave its times behind, see C49)"
  },
  {
   "property": "C51",
   "status": "proved",
   "theorems": [
    "C51_round_trip"
   ],
   "note": ""
  },
  {
   "property": "C52",
   "status": "proved",
   "theorems": [
    "C52_entries",
    "C52_entry_unique"
   ],
   "note": ""
  },
  {
   "property": "C53",
   "status": "partial",
   "theorems": [
    "C53_attribution_refuted",
    "C53_attribution_partial",
    "C53_listed"
   ],
   "note": "false: a container 'a' shows the lines of 'a_0' when both exist; proved for every container without such a companion"
  },
  {
   "property": "C54",
   "status": "proved",
   "theorems": [
    "C54_save_load",
    "C54_reachable",
    "C54_only_grid",
    "C54_reload"
   ],
   "note": "A saved tile is loaded with the same points, containers, layers, edges, indices of gridded resolutions and flags, whatever the folder held; dictionary order is not compared. Tiles reachable without layer queries qualify (C54_reachable)."
  },
  {
   "property": "C55",
   "status": "proved",
   "theorems": [
    "C55_only_new"
   ],
   "note": "For every previous content of the folder; for only_grid saves the points file has to be there."
  },
  {
   "property": "C56",
   "status": "proved",
   "theorems": [
    "C56_reload",
    "C56_written"
   ],
   "note": "For histories of calls that return normally, with any algorithm the code knows; number_of_tiles and mean_depth are the subject of C57. Layers made by queries are not part of these histories."
  },
  {
   "property": "C57",
   "status": "partial",
   "theorems": [
    "C57_refuted",
    "C57_stale_partial",
    "C57_after_grid_partial",
    "C57_after_remove_partial"
   ],
   "note": "Refuted: the attributes are written before the two are updated, so the folder holds the values from before the call (C57_stale_partial). Proved: after grid() and after remove_points all attributes are current."
  },
  {
   "property": "C58",
   "status": "partial",
   "theorems": [
    "C58_refuted",
    "C58_sr_partial"
   ],
   "note": "Refuted: the folder of an emptied sub-grid stays, and the grid loaded from it can not be gridded. Proved for single resolution grids."
  },
  {
   "property": "C59",
   "status": "proved",
   "theorems": [
    "C59_other_tiles"
   ],
   "note": "Every crash point, including torn arrays and partly removed folders."
  },
  {
   "property": "C60",
   "status": "partial",
   "theorems": [
    "C60_old_or_new_partial",
    "C60_points_lost_refuted"
   ],
   "note": "Refuted: _save_array removes the old array before writing the new one. Proved: a tile that can be loaded has the old or the new points, and only_grid saves do not touch the points."
  },
  {
   "property": "C61",
   "status": "proved",
   "theorems": [
    "C61_text",
    "C61_quarters",
    "C61_sr",
    "C61_vr",
    "C61_grid_entries",
    "C61_tile_entries",
    "C61_cell_test",
    "C61_resolution"
   ],
   "note": "Proved for any decimal text of the coordinates that reads back as the coordinate (good_repr); C61_quarters gives one for quarter-metre coordinates. Tile names and folder names are injective, a folder name is recognised, and the resolution is recovered from an array name. Negative zero as a tile origin (text '-0.0') is not modelled, since coordinates are exact."
  },
  {
   "property": "C62",
   "status": "proved",
   "theorems": [
    "C62_empty",
    "C62_untouched",
    "C62_not_reused"
   ],
   "note": "For file systems in which every entry is inside a folder; \".\" and \"..\" and links are not resolved. No existing entry changes, whatever the outcome."
  },
  {
   "property": "C63",
   "status": "proved",
   "theorems": [
    "C63_supported",
    "C63_unsupported",
    "C63_sr",
    "C63_vr"
   ],
   "note": "For grids that hold soundings after any calls, saved to any folder without a root folder of another class; for variable resolution grids also without a sub-grid folder at an empty location (C77)."
  },
  {
   "property": "C64",
   "status": "proved",
   "theorems": [
    "C64_accepted",
    "C64_is_bathygrid",
    "C64_single"
   ],
   "note": "For all directory listings; with two root folders is_bathygrid is True and load_grid raises (example roots_1)."
  },
  {
   "property": "C65",
   "status": "proved",
   "theorems": [
    "C65_bounded",
    "C65_gone",
    "C65_normal",
    "C65_none"
   ],
   "note": "rmtree is any function that may fail in any way; a normal return of it means that the path is gone. Without retries nothing is removed (C65_none)."
  },
  {
   "property": "C66",
   "status": "proved",
   "theorems": [
    "C66_unravel",
    "C66_ravel"
   ],
   "note": ""
  },
  {
   "property": "C67",
   "status": "partial",
   "theorems": [
    "C67_sr_partial",
    "C67_vr_depth_partial",
    "C67_vr_refuted"
   ],
   "note": "Refuted for variable resolution grids: the sub-grids are made without is_backscatter, so their layer is always depth (proved). Proved for single resolution grids."
  },
  {
   "property": "C68",
   "status": "partial",
   "theorems": [
    "C68_agree_partial",
    "C68_opposite",
    "C68_sign_refuted",
    "C68_vr_agree_partial",
    "C68_vr_opposite"
   ],
   "note": "False when elevations are asked for and mean_depth is not positive (C68_sign_refuted); the csv file then always has the opposite sign (C68_opposite). Proved otherwise for single resolution grids of which every tile has a value in each layer, and for variable resolution grids of which every sub-tile at the resolution has (C68_vr_agree_partial, C68_vr_opposite)."
  },
  {
   "property": "C69",
   "status": "proved",
   "theorems": [
    "C69_cube"
   ],
   "note": ""
  },
  {
   "property": "C70",
   "status": "partial",
   "theorems": [
    "C70_sr_after_grid_partial",
    "C70_vr_after_grid_partial",
    "C70_sr_ungridded_partial",
    "C70_first_tile_refuted"
   ],
   "note": "False of the code: only one tile is looked at (C70_first_tile_refuted). Proved after grid() returned normally and for grids never gridded."
  },
  {
   "property": "C71",
   "status": "proved",
   "theorems": [
    "C71_sr_after_grid",
    "C71_sr_after_add",
    "C71_vr_after_grid",
    "C71_vr_after_add",
    "C71_sr_some_tile",
    "C71_vr_some_tile",
    "C71_tile"
   ],
   "note": ""
  },
  {
   "property": "C72",
   "status": "proved",
   "theorems": [
    "C72_slopes"
   ],
   "note": ""
  },
  {
   "property": "C73",
   "status": "proved",
   "theorems": [
    "C73_lower",
    "C73_upper",
    "C73_last",
    "C73_origins",
    "C73_ticks",
    "C73_underflow"
   ],
   "note": "Stated with Flocq binary64 round-to-nearest-even over the reals of the standard library, so Print Assumptions lists the axioms of those reals. Range: quotient zero or at least 2^-1022 (C73_underflow shows a wrong boundary below it), and for the upper boundary below 2^53. The unbounded exponent format is used, so overflow is outside."
  },
  {
   "property": "C74",
   "status": "proved",
   "theorems": [
    "C74_values",
    "C74_values_vr",
    "C74_counts",
    "C74_counts_vr",
    "C74_other"
   ],
   "note": "the count layers have no NaN, their zero cells are left out (C74_counts)"
  },
  {
   "property": "C75",
   "status": "partial",
   "theorems": [
    "C75_remove_refuted",
    "C75_sr_remove_partial",
    "C75_vr_remove_partial"
   ],
   "note": "False of the code (C75_remove_refuted). Proved while the grid has not been emptied since it was created."
  },
  {
   "property": "C76",
   "status": "partial",
   "theorems": [
    "C76_refuted",
    "C76_own_path_partial"
   ],
   "note": "Refuted: save() without a path writes nothing. Proved: save with the path of the folder writes everything."
  },
  {
   "property": "C77",
   "status": "partial",
   "theorems": [
    "C77_sr_save_load_partial",
    "C77_vr_save_load_partial",
    "C77_vr_refuted"
   ],
   "note": "Refuted for variable resolution grids saved over another grid. Proved for single resolution grids and every previous content, and for variable resolution grids when the target folder has no sub-grid folder at a location where the grid has none."
  },
  {
   "property": "C78",
   "status": "partial",
   "theorems": [
    "C78_relative_refuted",
    "C78_refused_refuted",
    "C78_second_refuted",
    "C78_slash_refuted",
    "C78_new_partial",
    "C78_beside_partial",
    "C78_memory_partial"
   ],
   "note": "Refuted in four ways: a name without a folder part raises FileNotFoundError; refused options leave the new folder; a second call within a second for a folder in use raises FileExistsError; with a trailing separator the new folder is made inside the folder in use. Proved in the remaining cases."
  },
  {
   "property": "C79",
   "status": "proved",
   "theorems": [
    "C79_sr",
    "C79_vr",
    "C79_points",
    "C79_points_vr",
    "C79_backscatter"
   ],
   "note": "For grids gridded with known arguments without failure; C79_points adds that after grid(\"mean\") these are the numbers of points and their means. A backscatter grid with gridded tiles raises ValueError (C79_backscatter)."
  },
  {
   "property": "C80",
   "status": "proved",
   "theorems": [
    "C80_sr",
    "C80_vr"
   ],
   "note": "All histories; the columns are those of the points added, the same for all calls."
  },
  {
   "property": "C81",
   "status": "proved",
   "theorems": [
    "C81_sr",
    "C81_vr"
   ],
   "note": "For resolutions that divide the tile size, whenever get_layers_by_name answers."
  },
  {
   "property": "C82",
   "status": "partial",
   "theorems": [
    "C82_ends_sr",
    "C82_ends_vr",
    "C82_refuted",
    "C82_sr_partial",
    "C82_vr_partial"
   ],
   "note": "Refuted: the line goes one tile size beyond the largest x and y. Proved: it is along the axes, draws the square of every tile location and stays within one tile size of the extents."
  },
  {
   "property": "C83",
   "status": "partial",
   "theorems": [
    "C83_tuple",
    "C83_refuted",
    "C83_lists_partial",
    "C83_number_partial"
   ],
   "note": "Refuted: a tuple of y coordinates raises TypeError while a list does not. Proved for all other combinations."
  },
  {
   "property": "C84",
   "status": "partial",
   "theorems": [
    "C84_refuted",
    "C84_partial",
    "C84_rejected"
   ],
   "note": "Refuted: an array without z and a Dataset without y are accepted. Proved: accepted arrays have x and y; accepted datasets have x and z in one dimension and keep exactly the known columns."
  },
  {
   "property": "C85",
   "status": "partial",
   "theorems": [
    "C85_refuted",
    "C85_sr_partial",
    "C85_vr_partial"
   ],
   "note": "Refuted: the divisor is 3434290.012 instead of 1852^2 = 3429904. Proved: the value is the area divided by that number, within 0.13 percent."
  },
  {
   "property": "C86",
   "status": "partial",
   "theorems": [
    "C86_refuted",
    "C86_partial"
   ],
   "note": "Refuted: the result of the text replacement is thrown away, so a depth axis pointing down stays. Proved: the text is handed on as given, an empty one as unknown."
  },
  {
   "property": "C87",
   "status": "proved",
   "theorems": [
    "C87_elevation_range"
   ],
   "note": "All grids and states; 1000000 marks unset cells as in the code."
  },
  {
   "property": "C88",
   "status": "proved",
   "theorems": [
    "C88_vr",
    "C88_sr"
   ],
   "note": "Resolution divides the tile size; for variable resolution grids also the sub-tile size divides the tile size. Regridding with update clears the layers. Depth in the sign of the vertical reference."
  },
  {
   "property": "C89",
   "status": "proved",
   "theorems": [
    "C89_sr",
    "C89_vr"
   ],
   "note": "Resolution divides the tile size; for variable resolution grids also the sub-tile size divides the tile size. Regridding with update clears the layers."
  },
  {
   "property": "C90",
   "status": "partial",
   "theorems": [
    "C90_origin_partial",
    "C90_origin_refuted"
   ],
   "note": "Refuted more than 2^24 tiles from the origin (quarter-metre tiles at 4194304.25). Proved up to 2^24 tiles, for every tile size; this covers UTM coordinates with tiles of 1 m and more."
  },
  {
   "property": "C91",
   "status": "partial",
   "theorems": [
    "C91_between_refuted",
    "C91_between_partial",
    "C91_flat_partial",
    "C91_error_partial"
   ],
   "note": "Refuted: np.add.reduceat adds float32 soundings in float32; six soundings of 1 + 2^-22 give 1 + 2^-23. Proved for every order of addition: between when the sum fits the format (C91_between_partial), a flat bottom of float32 depths held as float64 stays flat up to 2^29 soundings (C91_flat_partial), error bound in general (C91_error_partial)."
  },
  {
   "property": "C92",
   "status": "partial",
   "theorems": [
    "C92_shoalest_refuted",
    "C92_shoalest_partial",
    "C92_error_partial"
   ],
   "note": "Refuted for float64 soundings: rounding to the float32 layer can make the depth greater. Proved for float32 soundings; error bound for float64."
  },
  {
   "property": "C93",
   "status": "proved",
   "theorems": [
    "C93_edges",
    "C93_cells",
    "C93_count"
   ],
   "note": "Coordinates in units 2^u; also the number of cells."
  },
  {
   "property": "C94",
   "status": "proved",
   "theorems": [
    "C94_same",
    "C94_lattice",
    "C94_extra"
   ],
   "note": "Grids of depths. Layers depth, density and, for mean, the uncertainties; the tile sizes are multiples of the resolution."
  },
  {
   "property": "C95",
   "status": "proved",
   "theorems": [
    "C95_sr",
    "C95_vr",
    "C95_sr_tiles",
    "C95_vr_tiles"
   ],
   "note": "Queries answered from all soundings (tile sizes multiples of the resolution), tiles at any legal resolution. Failing layer queries are not among the calls: the model gives them no state."
  },
  {
   "property": "C96",
   "status": "partial",
   "theorems": [
    "C96_failed_grid_refuted",
    "C96_sr_partial",
    "C96_vr_partial",
    "C96_refused_partial"
   ],
   "note": "Refuted: cube on soundings without uncertainties raises after replacing the layers, and its name stays recorded, so that the algorithm used before is refused too. Proved of every call in every state: soundings, containers, tile squares and all attributes but the four about gridding are unchanged; a call refused for its algorithm changes nothing."
  },
  {
   "property": "C97",
   "status": "partial",
   "theorems": [
    "C97_border_points_refuted",
    "C97_vr_own_sides_partial",
    "C97_vr_raises_partial",
    "C97_vr_complete_partial"
   ],
   "note": "Refuted: points near the side of their own sub-tile but far from the border are returned, and AttributeError is raised when a neighbouring sub-grid has a location without a tile. Proved for all histories: the exact points returned (up to order) when the neighbouring sub-grids are fully populated, AttributeError otherwise, and that no point near the border is missing when the call returns and the tile size is a multiple of the sub-tile size."
  },
  {
   "property": "C98",
   "status": "partial",
   "theorems": [
    "C98_cube_refuted",
    "C98_vr_returns_partial",
    "C98_vr_fails_partial"
   ],
   "note": "Refuted: AttributeError with a partly filled tile beside another. Proved: it returns normally when every tile beside another has a sub-tile at each location, and fails for every other layout unless the tile is skipped (the proof gives that some exception is raised)."
  },
  {
   "property": "C99",
   "status": "proved",
   "theorems": [
    "C99_depth",
    "C99_density"
   ],
   "note": "Algorithms 'mean' and 'shoalest', calls that regrid every tile; histories without failed grid() calls and unknown algorithms. That the density resolution is the one resolution_by_density gives for the sub-tile is C32."
  },
  {
   "property": "C100",
   "status": "partial",
   "theorems": [
    "C100_depth_refuted",
    "C100_sr_depth_partial",
    "C100_one_batch_partial"
   ],
   "note": "Refuted: mean_depth is that of the last batch (C34), so 10, 20, 30 m followed by 5, 7 m are gridded at the resolution of 6 m. Proved: all tiles get the resolution of the recorded mean_depth, the only one reported; as claimed, up to rounding of the mean to millimetres, for grids with one batch."
  },
  {
   "property": "C101",
   "status": "partial",
   "theorems": [
    "C101_always_refuted",
    "C101_sr_partial",
    "C101_vr_partial"
   ],
   "note": "Refuted: by depth, ValueError if the mean depth is 0, as for soundings at 3 m and -3 m. Proved: by density it always returns; by depth exactly if the recorded mean depth (of each sub-grid for variable resolution grids, and of the grid itself for the zarr version) is not 0."
  },
  {
   "property": "C102",
   "status": "proved",
   "theorems": [
    "C102_density"
   ],
   "note": "Algorithms 'mean' and 'shoalest', calls that regrid every tile; histories without failed grid() calls and unknown algorithms."
  },
  {
   "property": "C103",
   "status": "proved",
   "theorems": [
    "C103_sr_inputs"
   ],
   "note": "Calls that regrid every tile; histories without failed grid() calls and unknown algorithms; the engine is assumed to return arrays of the size it is asked for. Includes the layers read back from the grid folder."
  },
  {
   "property": "C104",
   "status": "partial",
   "theorems": [
    "C104_vr_inputs_refuted",
    "C104_vr_inputs_partial"
   ],
   "note": "Refuted: every sub-tile also gets the soundings of the neighbouring tiles that are near the side of their own sub-tile (C97), however far away. Proved: exactly what every sub-tile gets: near its own border, the soundings of the same tile; of the neighbouring tiles, those near the side of their own sub-tile; the border points of the caller."
  },
  {
   "property": "C105",
   "status": "partial",
   "theorems": [
    "C105_queries_keep_refuted",
    "C105_sr_partial",
    "C105_vr_partial",
    "C105_sr_layers_partial",
    "C105_vr_layers_partial"
   ],
   "note": "Refuted: asking for a name that is no layer or container, as a misspelt one, stores an empty layer of that name, which return_layer_names lists and csv exports write from then on; queries of containers and slopes also store layers. Proved: layers with names that gridding does not make are the only change; queries of the layers that gridding makes, geotiffs, bags, and csv files of grids with such layers only change nothing."
  },
  {
   "property": "C106",
   "status": "partial",
   "theorems": [
    "C106_again_partial",
    "C106_overwrite_refuted",
    "C106_stamped_partial",
    "C106_missing_partial"
   ],
   "note": "Refuted: export() looks for the given path but writes files with other names, so a second export to the same path replaces the files of the first (C106_again_partial: always, if the path itself does not exist). Proved: nothing is replaced if the path exists and no name on the disk contains the time stamp, or if it does not exist and no name in its folder begins with its name and '_'."
  },
  {
   "property": "C107",
   "status": "proved",
   "theorems": [
    "C107_sr_distinct",
    "C107_vr_distinct",
    "C107_beside"
   ],
   "note": "The texts of numbers are different for different numbers and have no '_' and '/' (proved for multiples of a quarter), those of times no '.' and '/'."
  },
  {
   "property": "C108",
   "status": "proved",
   "theorems": [
    "C108_sr_saved",
    "C108_sr_soundings",
    "C108_sr_layers",
    "C108_sr_update"
   ],
   "note": "Sessions begin with an explicit save (C56 and C57 for the folder that add_points writes); no queries of container and slope layers, failed grid() calls and unknown algorithms before a save. Layers: 'mean' and 'shoalest'; for the update, all sessions grid with the same algorithm and resolution."
  },
  {
   "property": "C109",
   "status": "proved",
   "theorems": [
    "C109_written",
    "C109_rest",
    "C109_attrs",
    "C109_again"
   ],
   "note": "On the tree of elements; reading and writing the document as bytes (ElementTree, h5py) is not modelled."
  },
  {
   "property": "C110",
   "status": "partial",
   "theorems": [
    "C110_together_refuted",
    "C110_together_partial"
   ],
   "note": "Refuted: a begin position is taken from any time period, a missing end is put into the first one. Proved for documents in which no element on the way occurs twice, as in those of GDAL."
  },
  {
   "property": "C111",
   "status": "proved",
   "theorems": [
    "C111_read",
    "C111_quotes"
   ],
   "note": "The escaping of ElementTree and minidom and the reading of entities are modelled for ASCII characters; the tags around the text are constant."
  },
  {
   "property": "C112",
   "status": "proved",
   "theorems": [
    "C112_vr_saved",
    "C112_vr_soundings",
    "C112_vr_layers",
    "C112_vr_update"
   ],
   "note": "The folder saved to has no sub-grids where the grid has none (without that, C77_vr_refuted). Sessions as in C108; layers at resolutions that divide the size of the sub-grid tiles, which divides the tile size."
  },
  {
   "property": "C113",
   "status": "partial",
   "theorems": [
    "C113_refuted",
    "C113_first",
    "C113_loads_partial",
    "C113_grid_partial",
    "C113_remove_partial",
    "C113_soundings_partial",
    "C113_layers_partial"
   ],
   "note": "Refuted: add_points writes the attributes before number_of_tiles is set, so after the first batch the folder has none, and removing points or gridding in parallel in the loaded grid ends with a TypeError (C113_first: for every first batch). Proved for single resolution grids continued whenever the number of tiles in the folder is current, which holds after every grid() and every removal of a known container."
  },
  {
   "property": "C114",
   "status": "partial",
   "theorems": [
    "C114_refused_partial",
    "C114_unchanged_partial",
    "C114_later_partial",
    "C114_recorded_partial",
    "C114_refused_refuted",
    "C114_mixed_refuted"
   ],
   "note": "Refuted twice: a refused call has already recorded the EPSG code if there was none, and a grid whose first soundings came without a reference accepts one with the opposite axis afterwards. Proved: a refused call raises ValueError and changes nothing else, and once a reference is recorded all later soundings go with it."
  },
  {
   "property": "C115",
   "status": "proved",
   "theorems": [
    "C115_sum",
    "C115_same_sr",
    "C115_same_vr"
   ],
   "note": "Sum proved for single resolution grids after grid() at a resolution that divides the tile size; equality with the densities paired with depths for single and variable resolution grids."
  },
  {
   "property": "C116",
   "status": "proved",
   "theorems": [
    "C116_lines_sr",
    "C116_lines_vr",
    "C116_files"
   ],
   "note": "The order of the lines is left open (the code sorts them by x with an unstable sort); numbers are not rounded to three decimals in the model."
  },
  {
   "property": "C117",
   "status": "proved",
   "theorems": [
    "C117_depth",
    "C117_density"
   ],
   "note": "Grids of depths after any history whose gridding calls returned normally; resolutions that divide the (sub-)tile size. Exact arithmetic."
  },
  {
   "property": "C118",
   "status": "proved",
   "theorems": [
    "C118_order"
   ],
   "note": "As C117."
  },
  {
   "property": "C119",
   "status": "proved",
   "theorems": [
    "C119_shoalest",
    "C119_density"
   ],
   "note": "As C117; the fine grid has all the fine cells in the coarse cell (it always has those with soundings)."
  },
  {
   "property": "C120",
   "status": "proved",
   "theorems": [
    "C120_moved"
   ],
   "note": "As C117."
  },
  {
   "property": "C121",
   "status": "proved",
   "theorems": [
    "C121_depth",
    "C121_other"
   ],
   "note": "As C117. C121_tie: with an offset of 0.001 a depth halfway between two roundings can differ by 0.001, since ties go to even."
  },
  {
   "property": "C122",
   "status": "proved",
   "theorems": [
    "C122_not_finer",
    "C122_not_coarser",
    "C122_sparse"
   ],
   "note": "The square root is only assumed to compare correctly with the resolutions of the table (sqrt_sound, as a correctly rounded one does; shown for a concrete one). Exact arithmetic otherwise. A factor of 0 counts as not given, as in the code."
  },
  {
   "property": "C123",
   "status": "proved",
   "theorems": [
    "C123_geotiff",
    "C123_geotiff_backscatter",
    "C123_bag",
    "C123_bag_times",
    "C123_no_depth"
   ],
   "note": "For every state of a grid. Where the values lie is C44, their signs C68."
  },
  {
   "property": "C124",
   "status": "proved",
   "theorems": [
    "C124_lines",
    "C124_written",
    "C124_total",
    "C124_sr_fresh",
    "C124_vr_fresh"
   ],
   "note": "For grids of either kind with any history, gridded with mean or shoalest at the exported resolution, whose layers are those that gave (shoalest: depth and density only); C124_sr_fresh and C124_vr_fresh: always so right after gridding with clear_existing. Exact arithmetic, rounding to three places included. Lines for cells without soundings list no depth; their order is left open."
  },
  {
   "property": "C125",
   "status": "proved",
   "theorems": [
    "C125_tile",
    "C125_sr",
    "C125_vr",
    "C125_first_sr",
    "C125_first_vr"
   ],
   "note": "For variable resolution the first name is always depth (see C67). For CUBE a grid on disk lists total_uncertainty before hypothesis_count, since it was read back; for variable resolution one of the two orders is proved."
  },
  {
   "property": "C126",
   "status": "proved",
   "theorems": [
    "C126_answer",
    "C126_either",
    "C126_refused",
    "C126_times"
   ],
   "note": "The answer of pyproj (is_vertical) is a parameter that may raise. Reading and parsing the document are not modelled."
  },
  {
   "property": "C127",
   "status": "proved",
   "theorems": [
    "C127_geotiff",
    "C127_bag",
    "C127_sr_fresh",
    "C127_vr_fresh"
   ],
   "note": "For single and variable resolution grids with any history that were gridded with mean, or with shoalest without uncertainty columns (C127_sr_fresh, C127_vr_fresh; C127_geotiff and C127_bag for all states in which the rasters show no other layers). The uncertainties that shoalest reports are the subject of C18."
  },
  {
   "property": "C128",
   "status": "proved",
   "theorems": [
    "C128_sr_chunks",
    "C128_vr_chunks",
    "C128_geotiff",
    "C128_bag"
   ],
   "note": "For all chunk sizes and both formats, for one resolution at a time: exporting a grid of several resolutions at once writes rasters of each, which do overlap."
  },
  {
   "property": "C129",
   "status": "proved",
   "theorems": [
    "C129_shoalest",
    "C129_density",
    "C129_mean"
   ],
   "note": "For 'mean' and 'shoalest', one resolution; cells that all three grids have."
  },
  {
   "property": "C130",
   "status": "proved",
   "theorems": [
    "C130_local"
   ],
   "note": "For 'mean' and 'shoalest', the layers that these always make (depth, density; with 'mean' also the uncertainties)."
  },
  {
   "property": "C131",
   "status": "proved",
   "theorems": [
    "C131_sr",
    "C131_vr",
    "C131_own"
   ],
   "note": "For the layers that the algorithms make; layers of single containers and slopes are computed when asked for and are not stored. Variable resolution grids: saved to a folder without sub-grids at places where the grid has none (C77). The single resolution grid may also be loaded from its own output folder after any call (C131_own)."
  },
  {
   "property": "C132",
   "status": "proved",
   "theorems": [
    "C132_sr",
    "C132_vr",
    "C132_own"
   ],
   "note": "As for C131. The order of the bands of a file, which follows the dictionary of the first tile, is not part of the statement."
  },
  {
   "property": "C133",
   "status": "proved",
   "theorems": [
    "C133_sr",
    "C133_vr",
    "C133_own"
   ],
   "note": "For grids gridded with clear_existing=True, so that all tiles have the layers of one algorithm. Variable resolution grids: saved to a folder without sub-grids at places where the grid has none (C77). C133_own: loaded from the own output folder."
  },
  {
   "property": "C134",
   "status": "partial",
   "theorems": [
    "C134_sr_partial",
    "C134_vr_partial",
    "C134_own_partial",
    "C134_refuted"
   ],
   "note": "False for CUBE gridded in memory (C134_refuted): hypothesis_count is made before total_uncertainty, but loading reads total_uncertainty first, so the columns of the csv change places. Proved for mean and shoalest, and for all algorithms for single resolution grids that have an output folder (C134_own_partial)."
  },
  {
   "property": "C135",
   "status": "proved",
   "theorems": [
    "C135_sr",
    "C135_vr"
   ],
   "note": "The files written for the tiles are not part of the statement: on disk every tile is written again."
  },
  {
   "property": "C136",
   "status": "proved",
   "theorems": [
    "C136_there",
    "C136_shoalest",
    "C136_mean"
   ],
   "note": "Grids of depths. A container named like a layer cannot be asked for: the query answers the layer of that name."
  },
  {
   "property": "C137",
   "status": "proved",
   "theorems": [
    "C137_count",
    "C137_same",
    "C137_coarse"
   ],
   "note": "Grids of depths; the resolution divides the tile sizes."
  },
  {
   "property": "C138",
   "status": "partial",
   "theorems": [
    "C138_sr_partial",
    "C138_vr_partial",
    "C138_refuted"
   ],
   "note": "False (C138_refuted): the loop over the tiles raises AttributeError when they are None, after the attributes were written; in a folder saved to before, the tiles stay and are loaded with the soundings that were removed. Proved: save fails exactly for grids without soundings; a folder without tile folders then loads as a grid without tiles. A grid that never held soundings is not covered by the loading part (its arrays are None)."
  },
  {
   "property": "C139",
   "status": "proved",
   "theorems": [
    "C139_area",
    "C139_same",
    "C139_area_vr",
    "C139_same_kinds",
    "C139_coarse"
   ],
   "note": "Grids of depths, with clear_existing: without it layers of other resolutions stay and are counted too (C20_two_resolutions)."
  },
  {
   "property": "C140",
   "status": "partial",
   "theorems": [
    "C140_sr_partial",
    "C140_vr_partial",
    "C140_order_partial",
    "C140_refuted"
   ],
   "note": "False (C140_refuted): two calls in the other order give other extents, because a call moves an upper side by a tile when the soundings do not (C13). Proved: the lower sides are the nearest possible and independent of the order, and after n calls the upper sides have less than n tiles to spare, none after one call."
  },
  {
   "property": "C141",
   "status": "proved",
   "theorems": [
    "C141_more",
    "C141_union",
    "C141_points",
    "C141_area",
    "C141_area_union"
   ],
   "note": "Grids of depths; the resolution divides the tile sizes. Follows from C137, C139 and facts about finite sets of squares."
  }
 ]
}