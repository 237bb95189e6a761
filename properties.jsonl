{"id": "C01", "title": "Binning puts each point in the one bin that contains it", "statement": "For sorted uniform bin edges and any points that lie inside [first edge, last edge) in both axes, bin2d_with_indices returns, for every point and in input order, row*ncols+col where the half-open rectangle [x_edge[col], x_edge[col+1]) x [y_edge[row], y_edge[row+1]) contains the point; no other (row, col) contains it.", "quantifier": "all lists of points, all positive bin widths, all numbers of rows and columns", "why_tests_cant": "Depends on edge ties and on the single-bin shortcut; finitely many samples never exercise all boundary coincidences.", "anchors": ["bathygrid/utilities.py:bin2d_with_indices"]}
{"id": "C02", "title": "Binning is independent of the dask partitioning", "statement": "bin2d_with_indices on dask arrays returns the same index list as on the concatenated numpy array, however the data are partitioned.", "quantifier": "all partitions of all point lists into any number of (possibly empty) partitions", "why_tests_cant": "The number of ways to partition is unbounded and the tests use one chunking.", "anchors": ["bathygrid/utilities.py:bin2d_with_indices"]}
{"id": "C03", "title": "Points outside the edges are rejected", "statement": "bin2d_with_indices never returns a bin index for a point that lies outside the edges: it raises instead.", "quantifier": "all points and edges", "why_tests_cant": "Negative indices wrap silently in numpy; only a universally quantified statement (or its refutation) shows which side is caught.", "anchors": ["bathygrid/utilities.py:bin2d_with_indices"]}
{"id": "C04", "title": "Every stored point lies in the tile that holds it", "statement": "For a grid created by create_grid (SR or VR), after any sequence of add_points and remove_points calls, every point found in a tile's data satisfies tile.min_x <= x < tile.max_x and tile.min_y <= y < tile.max_y; in VR grids also the bounds of the parent tile.", "quantifier": "all finite sequences of add calls that succeed or raise and remove calls that return (C75 says when they do), interleaved with grid calls and queries, with arbitrary point data and container names", "why_tests_cant": "Extents are re-derived and tiles re-placed on each call; tests cover one or two calls with positive coordinates.", "anchors": ["bathygrid/bgrid.py:BathyGrid.add_points", "bathygrid/bgrid.py:BathyGrid._add_points_to_tiles", "bathygrid/grids.py:BaseGrid._adjust_extents", "bathygrid/grids.py:BaseGrid._build_grid"]}
{"id": "C05", "title": "No sounding is lost, duplicated or reordered", "statement": "After any sequence of add_points/remove_points calls, the data of the tile at (x0, y0) equals, in order, the points of the containers currently in the grid (oldest first, each in its input order) that fall in that tile's square; a tile location is None exactly when there are none; every point of every current container falls in the square of some tile location.", "quantifier": "all finite sequences of add calls that succeed or raise and remove calls that return (C75 says when they do), interleaved with grid calls and queries (refinement to a list of (container, points))", "why_tests_cant": "A history property over unbounded call sequences and unbounded data.", "anchors": ["bathygrid/bgrid.py:BathyGrid.add_points", "bathygrid/bgrid.py:BathyGrid.remove_points", "bathygrid/bgrid.py:BathyGrid._update_tiles", "bathygrid/tile.py:SRTile.add_points", "bathygrid/tile.py:SRTile.remove_points"]}
{"id": "C06", "title": "points_count equals the number of soundings held", "statement": "points_count equals the sum, over the containers currently in the grid, of the number of points given when the container was added.", "quantifier": "all finite sequences of add calls that succeed or raise and remove calls that return (C75 says when they do), interleaved with grid calls and queries", "why_tests_cant": "Needs conservation over arbitrary histories.", "anchors": ["bathygrid/grids.py:BaseGrid.points_count", "bathygrid/grids.py:TileGrid.points_count"]}
{"id": "C07", "title": "Removing a container undoes adding it", "statement": "add_points(d, c) followed by remove_points(c) leaves the soundings of every tile location, the set of containers and points_count exactly as before, and leaves the soundings of all other containers untouched at all times.", "quantifier": "all reachable grid states, all data, all new container names", "why_tests_cant": "Depends on index bookkeeping for every interleaving of containers within a tile.", "anchors": ["bathygrid/bgrid.py:BathyGrid.remove_points", "bathygrid/tile.py:SRTile.remove_points"]}
{"id": "C08", "title": "A container can be added only once", "statement": "add_points with a container name already in the grid raises ValueError and changes nothing.", "quantifier": "all states, data and container names present in the grid", "why_tests_cant": "Tests check one call, and check only the exception.", "anchors": ["bathygrid/bgrid.py:BathyGrid.add_points"]}
{"id": "C09", "title": "Re-adding a container to a tile replaces its points", "statement": "On an SRTile, add_points(d2, c) when c is already present yields the data obtained by dropping c's old points (others keep order) and appending d2.", "quantifier": "all tile histories, names and data", "why_tests_cant": "All interleavings of containers are needed.", "anchors": ["bathygrid/tile.py:SRTile.add_points"]}
{"id": "C10", "title": "Container index ranges partition the tile data", "statement": "After any sequence of add/remove calls on an SRTile, tile.container maps each container to [start, end) such that the ranges are consecutive, start at 0, end at the number of points, and data[start:end] is exactly what was last added under that name.", "quantifier": "all sequences of tile operations", "why_tests_cant": "Range shifting after removal from the middle is an invariant, not a sample.", "anchors": ["bathygrid/tile.py:SRTile.add_points", "bathygrid/tile.py:SRTile.remove_points"]}
{"id": "C11", "title": "Growing a grid never moves or drops a tile", "statement": "When add_points extends the grid, every existing tile is found, after the call, at the location whose origin equals its old origin, unchanged except for newly added points.", "quantifier": "all reachable states of a growable grid with origin 0 and all new data", "why_tests_cant": "Uses a boolean mask assignment whose correctness depends on relative shapes for all growth directions at once.", "anchors": ["bathygrid/grids.py:BaseGrid._build_grid", "bathygrid/bgrid.py:BathyGrid._update_tiles"]}
{"id": "C12", "title": "Grid extents are aligned and strictly contain the data", "statement": "After any successful add_points on a growable grid with origin 0, min_x/min_y/max_x/max_y are multiples of tile_size, min <= every coordinate ever added since the grid was last empty, and max > it; width = max_x - min_x and height = max_y - min_y.", "quantifier": "all sequences of add calls that succeed or raise and remove calls that return (C75 says when they do), interleaved with grid calls and queries; positive or negative coordinates", "why_tests_cant": "Boundary coincidences and negative coordinates.", "anchors": ["bathygrid/grids.py:BaseGrid._adjust_extents", "bathygrid/grids.py:BaseGrid._update_extents"]}
{"id": "C13", "title": "Adding data inside the extents does not change the extents", "statement": "add_points with data lying entirely inside the current extents leaves min_x, min_y, max_x, max_y unchanged.", "quantifier": "all reachable states and all data inside the extents", "why_tests_cant": "Shows up only on repeated adds; the code grows the grid by one tile per call.", "anchors": ["bathygrid/grids.py:BaseGrid._adjust_extents", "bathygrid/grids.py:BaseGrid._update_extents"]}
{"id": "C14", "title": "A non-zero grid origin is honoured", "statement": "A growable grid constructed with min_x/min_y different from zero covers all data added to it.", "quantifier": "all origins, tile sizes and data", "why_tests_cant": "Tests only use origin zero.", "anchors": ["bathygrid/grids.py:BaseGrid._adjust_extents"]}
{"id": "C15", "title": "Empty tiles do not survive", "statement": "After any sequence of add/remove calls no tile in the grid has zero points; number_of_tiles equals the number of tiles present whenever the grid is non-empty; when the last container is removed the grid is empty and a later add starts a fresh grid.", "quantifier": "all sequences of add calls that succeed or raise and remove calls that return (C75 says when they do), interleaved with grid calls and queries", "why_tests_cant": "History property.", "anchors": ["bathygrid/bgrid.py:BathyGrid._remove_tile", "bathygrid/bgrid.py:BathyGrid.remove_points"]}
{"id": "C16", "title": "Mean gridding computes the cell mean", "statement": "After SRTile.grid('mean', r) each cell of the depth layer holds the mean z of exactly the points located in that cell's square, rounded to 3 decimals, NaN if there are none; the density layer holds the number of those points; vertical/horizontal uncertainty layers hold the rounded means of tvu/thu.", "quantifier": "all point sets inside the tile, all resolutions dividing the tile size", "why_tests_cant": "argsort/unique/reduceat pipeline over arbitrary groupings.", "anchors": ["bathygrid/algorithms.py:np_grid_mean", "bathygrid/tile.py:SRTile.grid", "bathygrid/tile.py:SRTile._run_mean_grid"]}
{"id": "C17", "title": "Shoalest gridding computes the cell minimum", "statement": "After SRTile.grid('shoalest', r) each cell of the depth layer holds the least z of exactly the points in that cell's square (rounded to 3 decimals), NaN if none, and density holds their number.", "quantifier": "all point sets inside the tile, all resolutions dividing the tile size", "why_tests_cant": "As for the mean.", "anchors": ["bathygrid/algorithms.py:np_grid_shoalest", "bathygrid/tile.py:SRTile._run_shoalest_grid"]}
{"id": "C18", "title": "Shoalest gridding reports the shoalest sounding's uncertainty", "statement": "After SRTile.grid('shoalest', r) the vertical/horizontal uncertainty of a populated cell is that of a sounding in that cell having the least z.", "quantifier": "all point sets with uncertainty columns", "why_tests_cant": "Test data are sorted by depth, which hides the missing indirection.", "anchors": ["bathygrid/algorithms.py:np_grid_shoalest"]}
{"id": "C19", "title": "Incremental gridding equals gridding from scratch", "statement": "After any sequence of add_points, remove_points and grid calls on an SRTile, a further grid(algorithm, r) produces the same layers as gridding a fresh tile that holds the same points.", "quantifier": "all sequences of tile operations, algorithms 'mean' and 'shoalest', all resolutions dividing the tile size", "why_tests_cant": "Cached cell indices must stay in step with the data for all interleavings.", "anchors": ["bathygrid/tile.py:SRTile.grid", "bathygrid/tile.py:SRTile.add_points", "bathygrid/tile.py:SRTile.remove_points"]}
{"id": "C20", "title": "Density accounts for every sounding once", "statement": "After gridding a tile, the density layer sums to the tile's points_count; after gridding an SR grid at one resolution, density_count summed equals the grid's points_count.", "quantifier": "all point sets, all resolutions dividing the tile size", "why_tests_cant": "Conservation over unbounded data.", "anchors": ["bathygrid/tile.py:SRTile.density_count", "bathygrid/bgrid.py:BathyGrid.density_count"]}
{"id": "C21", "title": "Gridding does not depend on point order or sort stability", "statement": "Permuting the points (and any choice of sorting permutation made by the unstable argsort) does not change the depth, uncertainty (mean) and density layers.", "quantifier": "all permutations of all point sets", "why_tests_cant": "Factorially many orders.", "anchors": ["bathygrid/algorithms.py:np_grid_mean", "bathygrid/algorithms.py:np_grid_shoalest"]}
{"id": "C22", "title": "regrid_option 'update' equals a full regrid", "statement": "If a grid has only ever been gridded with one algorithm and one resolution, then grid(algorithm, r, regrid_option='update') leaves every tile with the same layers at r as regrid_option='full'.", "quantifier": "all histories of add/remove/grid calls using that algorithm and resolution", "why_tests_cant": "Depends on the change flags over arbitrary histories.", "anchors": ["bathygrid/bgrid.py:BathyGrid.grid", "bathygrid/bgrid.py:BathyGrid._grid_regular"]}
{"id": "C23", "title": "regrid_option 'update' leaves unchanged tiles alone", "statement": "grid(..., regrid_option='update') does not alter the grids held by a tile whose points have not changed since it was last gridded.", "quantifier": "all reachable states", "why_tests_cant": "Only visible with several tiles in a particular order.", "anchors": ["bathygrid/bgrid.py:BathyGrid._grid_regular"]}
{"id": "C24", "title": "regrid_option 'update' never leaves a stale grid", "statement": "After grid(algorithm, r, regrid_option='update') the layers at r reflect all the points in the grid.", "quantifier": "all histories, including several resolutions", "why_tests_cant": "Needs a particular interleaving of two resolutions and an add.", "anchors": ["bathygrid/bgrid.py:BathyGrid._grid_regular", "bathygrid/tile.py:SRTile.grid"]}
{"id": "C25", "title": "Parallel gridding equals sequential gridding (mean, shoalest)", "statement": "grid(use_dask=True) gives the same tiles and the same list of resolutions as use_dask=False for any number of workers.", "quantifier": "all grids, all worker counts, all regrid options", "why_tests_cant": "Batch boundaries depend on the number of cores.", "anchors": ["bathygrid/bgrid.py:BathyGrid._grid_parallel", "bathygrid/bgrid.py:BathyGrid._gridding_parallel"]}
{"id": "C26", "title": "Parallel gridding equals sequential gridding (cube)", "statement": "For algorithm 'cube' the border points handed to the CUBE engine are the same with and without dask.", "quantifier": "all grids and resolutions", "why_tests_cant": "The two paths compute different buffers.", "anchors": ["bathygrid/bgrid.py:BathyGrid._grid_parallel", "bathygrid/bgrid.py:BathyGrid._grid_regular"]}
{"id": "C27", "title": "Changing the algorithm needs clear_existing", "statement": "grid() with an algorithm different from the one already used and clear_existing=False raises ValueError and leaves the grid unchanged.", "quantifier": "all gridded states and algorithm names", "why_tests_cant": "State-unchanged needs all states.", "anchors": ["bathygrid/bgrid.py:BathyGrid.grid"]}
{"id": "C28", "title": "Resolutions accumulate unless cleared", "statement": "After grid(r) on a tile the set of available resolutions is the previous set plus r; with clear_existing it is exactly {r}; other resolutions' layers are untouched when not clearing.", "quantifier": "all tile states, all resolutions", "why_tests_cant": "All states.", "anchors": ["bathygrid/tile.py:SRTile.grid", "bathygrid/tile.py:Tile.clear_grid"]}
{"id": "C29", "title": "Unknown gridding algorithms are rejected", "statement": "grid() with an algorithm other than 'mean', 'shoalest', 'cube' raises an exception.", "quantifier": "all algorithm strings", "why_tests_cant": "Infinitely many strings; none tested.", "anchors": ["bathygrid/bgrid.py:BathyGrid.grid", "bathygrid/tile.py:SRTile.grid"]}
{"id": "C30", "title": "Tile and cell sizes are powers of two", "statement": "is_power_of_two(n) returns True for every 2^k (k any integer) and False for every integer or inverse integer that is not one; it never accepts any other number.", "quantifier": "all integers k, all positive rationals n", "why_tests_cant": "Tolerances accept an uncountable neighbourhood of each power of two.", "anchors": ["bathygrid/utilities.py:is_power_of_two", "bathygrid/grids.py:BaseGrid.__init__", "bathygrid/tile.py:SRTile.grid"]}
{"id": "C31", "title": "Depth lookup gives the documented band", "statement": "The automatic resolution by depth is min(tile size, resolution of the first band whose maximum depth exceeds the mean depth); it never decreases with depth.", "quantifier": "all mean depths and tile sizes", "why_tests_cant": "argmax of an all-False mask silently yields the finest band beyond the table.", "anchors": ["bathygrid/tile.py:SRTile._calculate_resolution_lookup", "bathygrid/bgrid.py:BathyGrid._calculate_resolution_lookup", "bathygrid/grid_variables.py:depth_resolution_lookup"]}
{"id": "C32", "title": "Density resolution is legal", "statement": "resolution_by_density returns one of the table resolutions or the tile size, never more than the tile size, and the coarsest per-tile result at grid level.", "quantifier": "all tiles and all density estimates", "why_tests_cant": "All point distributions.", "anchors": ["bathygrid/tile.py:SRTile.resolution_by_density", "bathygrid/bgrid.py:BathyGrid.resolution_by_density"]}
{"id": "C33", "title": "The iterative density search terminates", "statement": "resolution_by_density_old returns after finitely many assessments, bounded by the number of table entries plus one, whatever each assessment says.", "quantifier": "all sequences of assessment outcomes and all starting resolutions in the table", "why_tests_cant": "A while True loop over arbitrary data.", "anchors": ["bathygrid/tile.py:SRTile.resolution_by_density_old", "bathygrid/tile.py:SRTile._assess_resolution"]}
{"id": "C34", "title": "mean_depth is the mean of the soundings held", "statement": "After any sequence of add/remove calls mean_depth is the mean z (rounded to 3 decimals) of all the points in the grid.", "quantifier": "all histories", "why_tests_cant": "Only the last added batch is used; single-add tests cannot see it.", "anchors": ["bathygrid/bgrid.py:BathyGrid._update_mean_depth"]}
{"id": "C35", "title": "End to end: a layer cell is the statistic of the soundings in that square", "statement": "After any add/remove history on an SR grid created by create_grid, followed by grid('mean' or 'shoalest', r), get_layers_by_name('depth', r)[0][R][C] is the rounded mean/minimum z of exactly those currently-held soundings with min_x+C*r <= x < min_x+(C+1)*r and min_y+R*r <= y < min_y+(R+1)*r, NaN if none; the density layer is their number.", "quantifier": "all histories, all cells, all resolutions dividing the tile size", "why_tests_cant": "Composition of every stage over unbounded data.", "anchors": ["bathygrid/bgrid.py:BathyGrid.get_layers_by_name", "bathygrid/bgrid.py:BathyGrid.get_tile_data", "bathygrid/bgrid.py:BathyGrid.grid"]}
{"id": "C36", "title": "Several layers requested together come back in request order", "statement": "get_layers_by_name([l1, l2, ...], r) returns the list of what the single-layer queries return.", "quantifier": "all grids, all layer lists", "why_tests_cant": "Misalignment appears only when some tile lacks one of the layers.", "anchors": ["bathygrid/bgrid.py:BathyGrid.get_layers_by_name"]}
{"id": "C37", "title": "Trimming keeps exactly the populated bounding box", "statement": "get_layers_trimmed returns the sub-array [rmin:rmax, cmin:cmax] of the full layer, where the box contains every non-NaN cell and each of its four sides touches one.", "quantifier": "all layers with at least one value", "why_tests_cant": "All array contents.", "anchors": ["bathygrid/bgrid.py:BathyGrid.get_layers_trimmed"]}
{"id": "C38", "title": "layer_values_at_xy returns the value of the cell containing the query", "statement": "For a grid with one resolution, layer_values_at_xy(x, y) is the value of the cell whose square contains (x, y), or nodata if the cell is empty or outside the grid.", "quantifier": "all grids, all query points", "why_tests_cant": "Fails only in the last row/column of the grid.", "anchors": ["bathygrid/bgrid.py:BathyGrid.layer_values_at_xy", "bathygrid/bgrid.py:BathyGrid.return_surf_xyz"]}
{"id": "C39", "title": "layer_values_at_xy prefers the finest resolution with a value", "statement": "With several resolutions the answer is the answer at the smallest resolution that has a value there, otherwise nodata.", "quantifier": "all finite sets of resolutions", "why_tests_cant": "All combinations.", "anchors": ["bathygrid/bgrid.py:BathyGrid.layer_values_at_xy"]}
{"id": "C40", "title": "nodata substitution replaces NaN only", "statement": "Requesting a layer with a nodatavalue returns the same array with exactly the NaN entries replaced by that value.", "quantifier": "all layers and nodata values", "why_tests_cant": "All array contents.", "anchors": ["bathygrid/tile.py:SRTile.get_layers_by_name", "bathygrid/bgrid.py:BathyGrid.get_layers_by_name"]}
{"id": "C41", "title": "Sign convention of returned depths", "statement": "A depth layer requested with z_positive_up=False is positive down and with z_positive_up=True positive up, whatever the vertical reference of the grid; no other layer changes sign.", "quantifier": "all grids, vertical references and layers", "why_tests_cant": "Double negations on four paths.", "anchors": ["bathygrid/bgrid.py:BathyGrid.get_tile_data", "bathygrid/tile.py:SRTile.get_layers_by_name", "bathygrid/bgrid.py:BathyGrid.positive_up"]}
{"id": "C42", "title": "Export chunks cover every tile exactly once", "statement": "The chunks generated for export contain every non-empty tile location exactly once and nothing else.", "quantifier": "all tile layouts, all chunk dimensions", "why_tests_cant": "array_split arithmetic over all shapes.", "anchors": ["bathygrid/bgrid.py:BathyGrid._tile_chunk_indices", "bathygrid/bgrid.py:BathyGrid._split_to_approx_shape"]}
{"id": "C43", "title": "Export chunks respect the maximum dimension", "statement": "No chunk spans more than the requested number of tile rows or columns.", "quantifier": "all tile layouts, all chunk dimensions", "why_tests_cant": "A lexicographic tuple comparison fails only for elongated layouts.", "anchors": ["bathygrid/bgrid.py:BathyGrid._split_to_approx_shape"]}
{"id": "C44", "title": "Rasters are georeferenced correctly", "statement": "In the array yielded for GDAL with its geotransform, the pixel at raster row k and column c holds the value of the cell whose square is [gx + c*r, gx+(c+1)*r) x [gy-(k+1)*r, gy-k*r), where gx, gy are the geotransform origin.", "quantifier": "all tile layouts, chunks, resolutions and cells", "why_tests_cant": "Transpose/flip conventions over all shapes.", "anchors": ["bathygrid/bgrid.py:BathyGrid.get_chunks_of_tiles", "bathygrid/bgrid.py:BathyGrid._finalize_chunk", "bathygrid/utilities.py:gdal_raster_create"]}
{"id": "C45", "title": "A container query grids only that container", "statement": "Requesting a layer by container name returns the grid computed from that container's points alone, NaN where it has none, and does not alter the depth layer.", "quantifier": "all tiles and containers", "why_tests_cant": "All interleavings of containers in tile data.", "anchors": ["bathygrid/tile.py:SRTile.get_layers_by_name", "bathygrid/tile.py:SRTile._run_mean_grid"]}
{"id": "C46", "title": "Neighbour points for CUBE come from the border strip of the side neighbours", "statement": "get_tile_neighbor_points(tile, b) returns exactly the soundings of the four side-adjacent tiles that lie within distance b of the shared edge.", "quantifier": "all SR grids, tiles and buffers", "why_tests_cant": "Orientation conventions (row -1 is south) over all layouts.", "anchors": ["bathygrid/bgrid.py:BathyGrid.get_tile_neighbor_points", "bathygrid/bgrid.py:BathyGrid.get_tile_neighbors"]}
{"id": "C47", "title": "cell_count and coverage area agree with the layers", "statement": "cell_count[r] is the number of populated cells at r summed over tiles, and coverage_area_square_meters differs from the exact populated area by at most 0.0005 m2 per gridded tile resolution.", "quantifier": "all gridded grids", "why_tests_cant": "Accumulated per-tile rounding.", "anchors": ["bathygrid/tile.py:SRTile.cell_count", "bathygrid/tile.py:SRTile.coverage_area_square_meters", "bathygrid/bgrid.py:BathyGrid.cell_count"]}
{"id": "C48", "title": "Coordinate systems cannot be mixed", "statement": "If the grid has an epsg, add_points with a different epsg raises ValueError and changes nothing; after any history all containers added with a crs used the same one.", "quantifier": "all histories", "why_tests_cant": "History property.", "anchors": ["bathygrid/bgrid.py:BathyGrid._update_metadata"]}
{"id": "C49", "title": "A failed add_points changes nothing", "statement": "If add_points raises, containers, epsg, vertical reference, times and soundings are as before the call.", "quantifier": "all states and arguments", "why_tests_cant": "Requires particular orders of attribute settings before each raise.", "anchors": ["bathygrid/bgrid.py:BathyGrid.add_points", "bathygrid/bgrid.py:BathyGrid._update_metadata"]}
{"id": "C50", "title": "min_time/max_time bound all added data", "statement": "After any sequence of successful add_points calls with non-zero times, min_time (max_time) parsed is the least (greatest) integer-truncated time given.", "quantifier": "all histories and times between years 1000 and 9999", "why_tests_cant": "History property through a string round-trip.", "anchors": ["bathygrid/bgrid.py:BathyGrid._update_metadata", "bathygrid/utilities.py:utc_seconds_to_formatted_string", "bathygrid/utilities.py:formatted_string_to_utc_seconds"]}
{"id": "C51", "title": "Time strings round-trip", "statement": "formatted_string_to_utc_seconds(utc_seconds_to_formatted_string(t)) = t for every whole second t of the years 1970..9999.", "quantifier": "all such integers t", "why_tests_cant": "253 billion values; calendar arithmetic.", "anchors": ["bathygrid/utilities.py:utc_seconds_to_formatted_string", "bathygrid/utilities.py:formatted_string_to_utc_seconds"]}
{"id": "C52", "title": "Unique container entries", "statement": "unique_container_entries lists each prefix before the single '__' (or the whole name when the name does not contain exactly one '__') once, in order of first appearance.", "quantifier": "all container name lists", "why_tests_cant": "All strings.", "anchors": ["bathygrid/grids.py:BaseGrid.unique_container_entries"]}
{"id": "C53", "title": "Attribution lists the right source lines", "statement": "return_attribution maps source_<c> to the file list given when container c was added.", "quantifier": "all sets of containers", "why_tests_cant": "Fails only when another container is named <c>_0.", "anchors": ["bathygrid/bgrid.py:OperationalGrid.return_attribution"]}
{"id": "C54", "title": "Saving and loading a tile is lossless", "statement": "_save_tile followed by _load_tile yields a tile with the same points, containers, layers, cell edges, cell indices (of gridded resolutions) and flags.", "quantifier": "all tiles with the standard layers, both backends", "why_tests_cant": "All tile contents.", "anchors": ["bathygrid/backends.py:BaseStorage._save_tile", "bathygrid/backends.py:BaseStorage._load_tile", "bathygrid/backends.py:NumpyGrid._save_tile_data", "bathygrid/backends.py:NumpyGrid._load_tile_data"]}
{"id": "C55", "title": "Stale grids do not reappear from disk", "statement": "After gridding with clear_existing and saving, loading the tile yields only the new resolution, whatever was on disk before.", "quantifier": "all previous disk contents of the tile folder", "why_tests_cant": "All previous contents.", "anchors": ["bathygrid/backends.py:NumpyGrid._save_tile_data"]}
{"id": "C56", "title": "The disk-backed grid is always reloadable with the same soundings", "statement": "For an SR grid with an output folder, after any sequence of add_points, remove_points and grid calls, loading the folder gives the same tiles (points, containers, layers), containers and coordinate system as memory.", "quantifier": "all histories", "why_tests_cant": "History property on two coupled states.", "anchors": ["bathygrid/backends.py:BaseStorage._save_grid", "bathygrid/backends.py:BaseStorage._save_tile", "bathygrid/backends.py:BaseStorage.load"]}
{"id": "C57", "title": "The disk metadata is current after add_points", "statement": "After add_points on a disk-backed grid, reloading gives the same mean_depth and number_of_tiles as in memory.", "quantifier": "all histories ending in add_points", "why_tests_cant": "The save happens before the attributes are updated.", "anchors": ["bathygrid/bgrid.py:BathyGrid._add_points_to_tiles", "bathygrid/backends.py:BaseStorage._save_grid"]}
{"id": "C58", "title": "A VR grid reloads without phantom tiles", "statement": "After remove_points empties a tile of a disk-backed VR grid, reloading the folder shows no tile there.", "quantifier": "all histories", "why_tests_cant": "Needs a remove followed by a reload.", "anchors": ["bathygrid/backends.py:BaseStorage.load", "bathygrid/bgrid.py:BathyGrid.remove_points"]}
{"id": "C59", "title": "A crash while saving a tile does not damage other tiles", "statement": "If the process dies at any point during _save_tile, loading any other tile is unaffected.", "quantifier": "all crash points, all disk states", "why_tests_cant": "All prefixes of the write sequence.", "anchors": ["bathygrid/backends.py:BaseStorage._save_tile", "bathygrid/backends.py:NumpyGrid._save_array"]}
{"id": "C60", "title": "A crash while saving a tile does not lose its old points", "statement": "If the process dies during _save_tile, loading that tile gives either the old or the new points.", "quantifier": "all crash points", "why_tests_cant": "All prefixes of the write sequence.", "anchors": ["bathygrid/backends.py:NumpyGrid._save_array", "bathygrid/backends.py:BaseStorage._save_tile"]}
{"id": "C61", "title": "Tile folder names are unique", "statement": "Two different tile locations of a grid have different folder names.", "quantifier": "all grids", "why_tests_cant": "All coordinates.", "anchors": ["bathygrid/backends.py:BaseStorage._get_tile_folder", "bathygrid/bgrid.py:BathyGrid._add_points_to_tiles"]}
{"id": "C62", "title": "create_folder never reuses a populated folder", "statement": "create_folder returns a folder that exists and is empty, and never touches existing folder contents.", "quantifier": "all file systems and names", "why_tests_cant": "All file system states.", "anchors": ["bathygrid/utilities.py:create_folder"]}
{"id": "C63", "title": "load_grid restores the class that create_grid made", "statement": "Saving a grid made by create_grid(folder, type, backend) and calling load_grid on its root folder gives a grid of the same class with the same tile sizes; unsupported combinations raise.", "quantifier": "all supported type/backend strings", "why_tests_cant": "Cross product of string dispatches.", "anchors": ["bathygrid/convenience.py:create_grid", "bathygrid/convenience.py:load_grid"]}
{"id": "C64", "title": "is_bathygrid agrees with load_grid's validation", "statement": "load_grid accepts a path only if is_bathygrid is True for it, and is_bathygrid True with exactly one root folder implies load_grid's path validation succeeds.", "quantifier": "all directory listings", "why_tests_cant": "All directory contents.", "anchors": ["bathygrid/convenience.py:is_bathygrid", "bathygrid/convenience.py:_validate_load_path"]}
{"id": "C65", "title": "remove_with_permissionserror is bounded and effective", "statement": "It attempts at most retries+1 deletions and, for retries >= 1, returns normally only if the folder is gone.", "quantifier": "all retry counts and failure patterns", "why_tests_cant": "All failure sequences.", "anchors": ["bathygrid/utilities.py:remove_with_permissionserror"]}
{"id": "C66", "title": "Index arithmetic is a bijection", "statement": "my_unravel_index(i, shape) gives the in-range coordinates whose row-major index is i; _tile_idx_to_row_col is the inverse of row*ncols+col.", "quantifier": "all shapes of any dimension, all indices in range", "why_tests_cant": "All shapes.", "anchors": ["bathygrid/algorithms.py:my_unravel_index", "bathygrid/grids.py:BaseGrid._tile_idx_to_row_col"]}
{"id": "C67", "title": "Backscatter VR grids have an intensity layer", "statement": "A grid created with is_backscatter=True has, after gridding, an 'intensity' layer and no 'depth' layer, for SR and VR.", "quantifier": "all data", "why_tests_cant": "Only SR is tested.", "anchors": ["bathygrid/maingrid.py:VRGridTile._build_tile", "bathygrid/tile.py:SRTile.new_grid"]}
{"id": "C68", "title": "CSV and raster exports agree on the sign of z", "statement": "For a given z_positive_up the z column written to csv equals the z band written to GeoTIFF for the same cell.", "quantifier": "all grids and vertical references", "why_tests_cant": "Needs a positive-up vertical reference.", "anchors": ["bathygrid/bgrid.py:OperationalGrid._export_csv", "bathygrid/bgrid.py:OperationalGrid._export_geotiff"]}
{"id": "C69", "title": "CUBE results are placed the right way up", "statement": "After grid('cube', r) cell (row, col) holds the engine's value for engine row nrows-1-row where the engine produced one and NaN elsewhere; density counts only the tile's own points, never border points.", "quantifier": "all engine outputs and border data", "why_tests_cant": "The engine is external; must hold for every output.", "anchors": ["bathygrid/algorithms.py:nb_cube", "bathygrid/tile.py:SRTile._run_cube_grid"]}
{"id": "C70", "title": "no_grid is accurate", "statement": "no_grid is False iff some tile of the grid holds gridded data.", "quantifier": "all reachable states", "why_tests_cant": "Looks only at the first tile.", "anchors": ["bathygrid/bgrid.py:BathyGrid.no_grid"]}
{"id": "C71", "title": "point_count_changed is accurate", "statement": "A tile's flag is True iff points were added or removed since it was last gridded; a grid's flag is True iff some tile's is.", "quantifier": "all tile histories", "why_tests_cant": "History property.", "anchors": ["bathygrid/tile.py:SRTile.add_points", "bathygrid/tile.py:SRTile.remove_points", "bathygrid/tile.py:SRTile.grid", "bathygrid/bgrid.py:BathyGrid.point_count_changed"]}
{"id": "C72", "title": "Slopes are fitted per cell on exactly that cell's points", "statement": "calculate_slopes sets cell (r, c) to the fit returned by the least-squares solver for exactly the points of that cell (in some order) and NaN for cells without points.", "quantifier": "all point sets, any solver", "why_tests_cant": "Grouping by argsort/split over arbitrary data.", "anchors": ["bathygrid/algorithms.py:calculate_slopes"]}
{"id": "C73", "title": "Float tile boundaries are exact", "statement": "In IEEE binary64 arithmetic the computed lower and upper tile boundaries of a coordinate equal floor(x/ts)*ts and ceil(x/ts)*ts exactly for power-of-two tile sizes.", "quantifier": "all finite binary64 coordinates not within underflow/overflow range, all power-of-two tile sizes", "why_tests_cant": "2^64 coordinates.", "anchors": ["bathygrid/grids.py:BaseGrid._adjust_extents"]}
{"id": "C74", "title": "return_layer_values returns every populated value", "statement": "return_layer_values(layer, r) is the list, tile by tile in row-major order, of the non-NaN values of that layer.", "quantifier": "all gridded grids", "why_tests_cant": "All contents.", "anchors": ["bathygrid/bgrid.py:BathyGrid.return_layer_values", "bathygrid/tile.py:SRTile.return_layer_values"]}
{"id": "C75", "title": "remove_points of a held container succeeds", "statement": "For every reachable grid, remove_points(c) with c in the grid returns without raising.", "quantifier": "all reachable grid states, all containers held", "why_tests_cant": "The failing state needs at least three adds, three removes and a larger re-add.", "anchors": ["bathygrid/bgrid.py:BathyGrid.remove_points", "bathygrid/bgrid.py:BathyGrid._remove_tile", "bathygrid/bgrid.py:BathyGrid._update_base_grid"]}
{"id": "C76", "title": "save without a path saves", "statement": "grid.save() with no path, on a grid with an output folder, writes the grid to that folder.", "quantifier": "all grids with an output folder", "why_tests_cant": "Depends on which save the method resolution order picks; tests only check that the folder exists.", "anchors": ["bathygrid/backends.py:BaseStorage.save", "bathygrid/bgrid.py:OperationalGrid.save"]}
{"id": "C77", "title": "A grid saved to a folder is loaded as it was", "statement": "grid.save(path) on a grid that holds points, whatever the folder held before, and loading the folder gives the same tiles, tile locations and attributes.", "quantifier": "all histories, all previous folder contents", "why_tests_cant": "The previous content of the folder matters only in combinations no test sets up.", "anchors": ["bathygrid/backends.py:BaseStorage.save", "bathygrid/backends.py:BaseStorage.load"]}
{"id": "C78", "title": "create_grid makes the folder it is asked for", "statement": "create_grid with a non-empty folder path and valid options returns a grid whose output folder is the requested folder, or a new folder beside it when the requested one is in use; a call that raises leaves no new folder.", "quantifier": "all file systems, paths and options", "why_tests_cant": "Tests use one fresh absolute path; relative names, trailing separators, repeated calls and refused options are not combined with a folder.", "anchors": ["bathygrid/convenience.py:_validate_create_options", "bathygrid/convenience.py:create_grid", "bathygrid/utilities.py:create_folder"]}
{"id": "C79", "title": "Density against depth pairs cells", "statement": "density_count_vs_depth and density_per_square_meter_vs_depth give two lists of equal length: for every cell of every tile with a positive density, in order, its density and the depth of the same cell.", "quantifier": "all grids gridded without failure, all algorithms", "why_tests_cant": "Tests compare the lists for one file; that both masks pick the same cells in all states is a claim about all states.", "anchors": ["bathygrid/bgrid.py:BathyGrid.density_count_vs_depth", "bathygrid/bgrid.py:BathyGrid.density_per_square_meter_vs_depth", "bathygrid/tile.py:SRTile.density_count_vs_depth"]}
{"id": "C80", "title": "Uncertainty flags are right", "statement": "has_vertical_uncertainty (has_horizontal_uncertainty) is true exactly when the grid holds points and they have the tvu (thu) column.", "quantifier": "all reachable grids", "why_tests_cant": "The attribute looks only at the first tile; that any tile gives the same answer holds only because of an invariant.", "anchors": ["bathygrid/bgrid.py:BathyGrid.has_vertical_uncertainty", "bathygrid/bgrid.py:BathyGrid.has_horizontal_uncertainty"]}
{"id": "C81", "title": "The tile generator covers the grid", "statement": "get_tiles_by_resolution gives every tile with its geotransform and position exactly once, and putting the tiles at their positions into an empty array gives get_layers_by_name of the same layer.", "quantifier": "all reachable grids, all resolutions that divide the tile size, all layers", "why_tests_cant": "Tests look at one tile of one grid.", "anchors": ["bathygrid/bgrid.py:BathyGrid.get_tiles_by_resolution", "bathygrid/bgrid.py:BathyGrid.get_layers_by_name"]}
{"id": "C82", "title": "Tile boundaries stay in the grid", "statement": "get_tile_boundaries returns a line along the axes that draws the square of every tile location and stays within the extents of the grid.", "quantifier": "all reachable grids", "why_tests_cant": "There is no test of the method.", "anchors": ["bathygrid/bgrid.py:BathyGrid.get_tile_boundaries"]}
{"id": "C83", "title": "The form of queried locations does not matter", "statement": "layer_values_at_xy gives the same values for the same locations as numbers, tuples, lists or arrays.", "quantifier": "all grids, all locations, all combinations of forms", "why_tests_cant": "Tests use one combination of forms.", "anchors": ["bathygrid/bgrid.py:BathyGrid.layer_values_at_xy", "bathygrid/bgrid.py:BathyGrid._validate_layer_query"]}
{"id": "C84", "title": "Accepted data has coordinates and values", "statement": "Data that _validate_input_data accepts has the columns x, y and z for every point.", "quantifier": "all column names, kinds of data and dimensions", "why_tests_cant": "Tests pass well-formed data only.", "anchors": ["bathygrid/bgrid.py:OperationalGrid._validate_input_data"]}
{"id": "C85", "title": "Coverage in square nautical miles", "statement": "coverage_area_square_nm is coverage_area_square_meters in square nautical miles (1852 m).", "quantifier": "all grids", "why_tests_cant": "The test compares with a number computed by the same code.", "anchors": ["bathygrid/bgrid.py:BathyGrid.coverage_area_square_nm", "bathygrid/tile.py:SRTile.coverage_area_square_nm"]}
{"id": "C86", "title": "Exported BAG declares elevations", "statement": "The vertical reference of an exported BAG does not declare a depth axis pointing down, since its elevations are positive up.", "quantifier": "all grids, all vertical references", "why_tests_cant": "Tests do not open the metadata of the BAG.", "anchors": ["bathygrid/bgrid.py:OperationalGrid._export_bag"]}
{"id": "C87", "title": "Elevation range recorded in a BAG", "statement": "The maximum and minimum elevation recorded in an exported BAG are the maximum and minimum of the set cells of its first band; with no set cells none are recorded.", "quantifier": "all grids, resolutions and chunk sizes", "why_tests_cant": "Tests do not read the recorded range.", "anchors": ["bathygrid/bgrid.py:OperationalGrid._export_bag"]}
{"id": "C88", "title": "Queries after gridding, whole grids", "statement": "After grid() with mean or shoalest at a resolution dividing the (sub-)tile size, and after any further layer queries, get_layers_by_name gives for depth, density and uncertainty one array covering the grid's extents whose every cell is the algorithm's value for exactly the soundings in that cell, for single and variable resolution grids; the grid is unchanged.", "quantifier": "all histories, all tile and sub-tile sizes, all later queries", "why_tests_cant": "Tests read single tiles or a few cells of small grids, and never ask twice.", "anchors": ["bathygrid/bgrid.py:BathyGrid.get_layers_by_name", "bathygrid/bgrid.py:BathyGrid.get_tile_data", "bathygrid/tile.py:SRTile.get_layers_by_name"]}
{"id": "C89", "title": "Slope layers are those of the soundings held", "statement": "After grid() with mean or shoalest, asking for x_slope or y_slope gives in every cell of the grid the least-squares fit of exactly the soundings the grid now holds in that cell, no matter which slopes were asked for before soundings were added or removed.", "quantifier": "all histories, single and variable resolution grids, any solver", "why_tests_cant": "Slopes are cached in the tile and no test changes the points after asking for them.", "anchors": ["bathygrid/tile.py:SRTile._run_slopes", "bathygrid/tile.py:SRTile._clear_temp_data", "bathygrid/bgrid.py:BathyGrid.get_layers_by_name"]}
{"id": "C90", "title": "The georeference of a raster is exact in float32", "statement": "The x and y of the origin in the geotransform, which the code converts to float32, are the corner of the tiles in the raster.", "quantifier": "all tile sizes and tile locations", "why_tests_cant": "Tests use small coordinates; float32 has 24 bits and the conversion rounds silently.", "anchors": ["bathygrid/bgrid.py:BathyGrid.get_geotransform", "bathygrid/grids.py:TileGrid.get_geotransform"]}
{"id": "C91", "title": "Mean depths in floating point stay within the soundings", "statement": "The depth that mean gridding stores for a cell is not less than the least and not greater than the greatest sounding of the cell, whatever the order in which numpy adds them; the rounding error is bounded.", "quantifier": "all cells, float32 and float64 soundings, every order of addition", "why_tests_cant": "Tests compare a few rounded means; rounding depends on the number, size and order of the soundings.", "anchors": ["bathygrid/algorithms.py:np_grid_mean"]}
{"id": "C92", "title": "Stored shoalest depths are not deeper than the soundings", "statement": "The depth that shoalest gridding stores for a cell is the depth of a sounding of the cell and not greater than any of them.", "quantifier": "all cells, float32 and float64 soundings", "why_tests_cant": "Tests have depths that float32 holds exactly.", "anchors": ["bathygrid/algorithms.py:np_grid_shoalest", "bathygrid/tile.py:SRTile.new_grid"]}
{"id": "C93", "title": "Cell edges are exact in floating point", "statement": "The cell edges that np.arange makes from a tile origin that is a multiple of the resolution are exact, so comparing coordinates with them is exact.", "quantifier": "all tile locations, sizes and resolutions that are powers of two, within 51 bits", "why_tests_cant": "Accumulated rounding would show only far from the origin or with many cells.", "anchors": ["bathygrid/tile.py:SRTile.new_grid"]}
{"id": "C94", "title": "The layers of a grid depend only on the soundings it holds", "statement": "Two grids that hold the same soundings and were gridded with the same algorithm (mean or shoalest) and resolution give the same value in every cell that both have, whether they are single or variable resolution, whatever their tile sizes, the order in which data were added or removed and the queries made; their cells lie on one lattice, and a cell that only one of them has is empty.", "quantifier": "For all pairs of grids of either kind, all histories of adding, removing, gridding and querying, all tile sizes that the resolution divides, all orders of the soundings.", "why_tests_cant": "A test compares a few pairs of grids; agreement must hold for every way of getting the same soundings into any tiling.", "anchors": ["bathygrid/bgrid.py:BathyGrid.grid", "bathygrid/bgrid.py:BathyGrid.get_layers_by_name", "bathygrid/tile.py:SRTile.grid"]}
{"id": "C95", "title": "Gridding with clear_existing recovers from anything", "statement": "Whatever calls came before, including calls of grid() that raised half way or named an unknown algorithm, grid() with mean or shoalest, a legal resolution and clear_existing=True returns normally, and every layer is then the statistic of the soundings held.", "quantifier": "For all single and variable resolution grids with soundings, all histories of add_points, remove_points, grid and layer queries with any arguments, sequential and parallel.", "why_tests_cant": "A test can make one call fail at one tile; a leftover index, edge or layer that spoils the next run can come from any sequence of failures.", "anchors": ["bathygrid/bgrid.py:BathyGrid.grid", "bathygrid/tile.py:SRTile.grid", "bathygrid/tile.py:Tile.clear_grid"]}
{"id": "C96", "title": "A failed grid() changes nothing", "statement": "When grid() raises, the grid is as it was before the call: soundings, containers, attributes and layers.", "quantifier": "For all grids in any state, all arguments of grid(), sequential and parallel.", "why_tests_cant": "Tests check that the exception is raised, not the state that is left behind.", "anchors": ["bathygrid/bgrid.py:BathyGrid.grid", "bathygrid/tile.py:SRTile.grid", "bathygrid/tile.py:SRTile.new_grid"]}
{"id": "C97", "title": "Border points of variable resolution tiles", "statement": "For a variable resolution grid, get_tile_neighbor_points returns exactly the soundings of the tiles that share a side with the given tile that lie within the buffer of that side.", "quantifier": "for all sequences of calls, tiles and buffers", "why_tests_cant": "The existing tests of border points use single resolution grids; what a variable resolution neighbour contributes depends on the layout of its sub-tiles.", "anchors": ["bathygrid/bgrid.py:BathyGrid.get_tile_neighbor_points", "bathygrid/bgrid.py:BathyGrid.get_tile_neighbors"]}
{"id": "C98", "title": "Gridding a variable resolution grid with cube", "statement": "grid() with algorithm 'cube', a legal resolution and soundings with uncertainties returns normally for every non-empty variable resolution grid.", "quantifier": "for all sequences of calls, soundings and grid() arguments", "why_tests_cant": "Whether the call returns depends on which sub-tile locations of neighbouring tiles are empty; tests use a few fixed layouts.", "anchors": ["bathygrid/bgrid.py:BathyGrid.grid", "bathygrid/bgrid.py:BathyGrid.get_tile_neighbor_points"]}
{"id": "C99", "title": "Automatic resolutions of variable resolution grids", "statement": "After grid() without a resolution returns on a variable resolution grid, every sub-tile holds the layers of the soundings in it, at a resolution of the lookup table or the sub-tile size if that is smaller: by depth the one for the mean depth of these soundings, by density a resolution that is not above the sub-tile size. The grid reports exactly the resolutions of its sub-tiles.", "quantifier": "for all sequences of calls, soundings shallower than 20480 m, sub-tiles and numbers of workers", "why_tests_cant": "Each sub-tile chooses by its own soundings; tests check one or two fixed clouds of points and only the list of resolutions.", "anchors": ["bathygrid/bgrid.py:BathyGrid.grid", "bathygrid/tile.py:SRTile.grid", "bathygrid/tile.py:SRTile.resolution_by_density"]}
{"id": "C100", "title": "Automatic depth resolution of single resolution grids", "statement": "grid() of a single resolution grid without a resolution, by depth, grids all tiles at the resolution that the lookup table gives for the mean depth of the soundings of the grid.", "quantifier": "for all sequences of calls and soundings shallower than 20480 m", "why_tests_cant": "Tests add one batch of soundings; the mean depth used depends on the last of several calls.", "anchors": ["bathygrid/bgrid.py:BathyGrid.grid", "bathygrid/bgrid.py:BathyGrid._calculate_resolution_lookup"]}
{"id": "C101", "title": "Gridding with an automatic resolution returns", "statement": "grid() without a resolution, with 'mean' or 'shoalest', returns normally for every grid with soundings whose tile size is a power of two.", "quantifier": "for all sequences of calls, soundings and both automatic modes", "why_tests_cant": "Failure needs particular depths; tests use clouds of positive depths.", "anchors": ["bathygrid/bgrid.py:BathyGrid.grid", "bathygrid/bgrid.py:BathyGrid._calculate_resolution_lookup", "bathygrid/bgrid.py:BathyGrid.resolution_by_density"]}
{"id": "C102", "title": "Automatic density resolution of single resolution grids", "statement": "When grid() of a single resolution grid without a resolution, by density, returns, all tiles are gridded at the coarsest of the resolutions that the tiles determine by their densities; it is the only resolution that the grid reports, and is one of the lookup table or the tile size.", "quantifier": "for all sequences of calls, soundings and numbers of workers", "why_tests_cant": "Tests check one fixed cloud of points with one tile layout.", "anchors": ["bathygrid/bgrid.py:BathyGrid.grid", "bathygrid/bgrid.py:BathyGrid.resolution_by_density"]}
{"id": "C103", "title": "Soundings that CUBE gets for the tiles of single resolution grids", "statement": "After grid() with 'cube' of a single resolution grid, the layers of every tile are what the CUBE engine returns for the soundings of the tile, those of the adjacent tiles within a tenth of the tile size of the common side (with workers and a given resolution, also within three cells), each once, and the border points that the caller passed; the density counts the soundings of the tile alone.", "quantifier": "for all sequences of calls, engines, tiles, parameters and numbers of workers", "why_tests_cant": "The engine is replaced or skipped where it is not installed, and tests use grids whose tiles have no soundings near their borders.", "anchors": ["bathygrid/bgrid.py:BathyGrid.grid", "bathygrid/bgrid.py:BathyGrid._grid_regular", "bathygrid/bgrid.py:BathyGrid._grid_parallel", "bathygrid/tile.py:SRTile.grid"]}
{"id": "C104", "title": "Soundings that CUBE gets for the sub-tiles of variable resolution grids", "statement": "After grid() with 'cube' of a variable resolution grid, the layers of every sub-tile are what the CUBE engine returns for the soundings of the sub-tile and those of adjacent sub-tiles near the common side.", "quantifier": "for all sequences of calls, engines, tiles, parameters and numbers of workers", "why_tests_cant": "The result differs from the intended one by soundings of other tiles, which only a comparison of the engine's inputs shows.", "anchors": ["bathygrid/bgrid.py:BathyGrid.grid", "bathygrid/bgrid.py:BathyGrid.get_tile_neighbor_points", "bathygrid/tile.py:SRTile.grid"]}
{"id": "C105", "title": "Queries and exports do not change the grid", "statement": "The queries of layers, values, nodes, boundaries, chunks and tiles and the exports as csv, geotiff and bag return the grid as it was: its soundings, layers, metadata and files.", "quantifier": "for all grids, layers, resolutions, queries and exports", "why_tests_cant": "Tests look at the answers, not at the grid afterwards; a stored layer shows up only in the next listing or export.", "anchors": ["bathygrid/bgrid.py:BathyGrid.get_layers_by_name", "bathygrid/bgrid.py:BathyGrid.export", "bathygrid/bgrid.py:BathyGrid.get_chunks_of_tiles", "bathygrid/tile.py:SRTile.get_layers_by_name"]}
{"id": "C106", "title": "Exports do not overwrite files", "statement": "export() does not write to a file that exists: when the output path exists, the current time is put into the names of the files.", "quantifier": "for all grids, output paths, formats, resolutions, chunk sizes and contents of the disk", "why_tests_cant": "Tests export into fresh temporary folders, once for each path.", "anchors": ["bathygrid/bgrid.py:BathyGrid.export", "bathygrid/bgrid.py:BathyGrid._export_csv", "bathygrid/bgrid.py:BathyGrid._export_geotiff", "bathygrid/bgrid.py:BathyGrid._export_bag"]}
{"id": "C107", "title": "The files of one export are distinct and lie beside the output path", "statement": "The files that one export() writes have different names, one for each resolution and chunk (two for bags), and all lie in the folder of the output path and begin with its name.", "quantifier": "for all sequences of calls, output paths that do not end in '/', formats, resolutions and chunk sizes", "why_tests_cant": "Tests have one resolution and one chunk and output paths with one '.'; a collision would show only as a missing file.", "anchors": ["bathygrid/bgrid.py:BathyGrid.export", "bathygrid/bgrid.py:BathyGrid._export_csv", "bathygrid/bgrid.py:BathyGrid._export_geotiff", "bathygrid/bgrid.py:BathyGrid._export_bag"]}
{"id": "C108", "title": "A single resolution grid can be saved, loaded and worked on again any number of times", "statement": "Whatever is added, removed and gridded before and between: saving a single resolution grid with soundings to any folder and loading the folder gives the same tiles and attributes, the tiles hold exactly the soundings added and not removed in all the sessions, and gridding then, including the update of the tiles changed in earlier sessions, makes every layer the statistic of the soundings held.", "quantifier": "for all sequences of adding, removing, gridding, saving and loading, and all former contents of the folders", "why_tests_cant": "Tests save and load once and compare; none adds, removes or grids after loading more than once.", "anchors": ["bathygrid/bgrid.py:BathyGrid.save", "bathygrid/bgrid.py:BathyGrid.load", "bathygrid/bgrid.py:BathyGrid.grid", "bathygrid/bgrid.py:BathyGrid.add_points", "bathygrid/bgrid.py:BathyGrid.remove_points"]}
{"id": "C109", "title": "The times in the metadata of an exported BAG", "statement": "_set_temporal_extents puts the begin and end time of the grid into the first begin and end position of the metadata document, adding the elements on the way that are missing; everything else in the document stays as it was, and setting the times again leaves only the new ones.", "quantifier": "for all documents and times", "why_tests_cant": "Tests do not read the metadata of a BAG; documents that already have times, or have several of the elements, do not come up in exports of fresh files.", "anchors": ["bathygrid/bgrid.py:_set_temporal_extents"]}
{"id": "C110", "title": "Begin and end time of a BAG are in the same time period", "statement": "After _set_temporal_extents the begin and end position that have the times are in the same TimePeriod element.", "quantifier": "for all documents and times", "why_tests_cant": "It takes a document with two temporal elements of which the second only has a begin position.", "anchors": ["bathygrid/bgrid.py:_set_temporal_extents"]}
{"id": "C111", "title": "The Caris file holds the coordinate system", "statement": "Reading the file that _generate_caris_rxl writes gives the coordinate system that was passed in, and the quotation marks in it are written as such.", "quantifier": "for all texts of ASCII characters that XML can hold, without carriage returns", "why_tests_cant": "The entities of quotation marks are replaced in the text of the whole document; that this neither changes the text nor breaks the document matters only for names with '&', '<' or entities in them.", "anchors": ["bathygrid/bgrid.py:_generate_caris_rxl"]}
{"id": "C112", "title": "A variable resolution grid can be saved, loaded and worked on again any number of times", "statement": "Whatever is added, removed and gridded before and between: saving a variable resolution grid with soundings to a folder that has no sub-grids where the grid has none, and loading the folder, gives the same sub-grids, tiles and attributes, the tiles of the sub-grids hold exactly the soundings added and not removed in all the sessions, and gridding then, including the update of the tiles changed in earlier sessions, makes every layer the statistic of the soundings held.", "quantifier": "for all sequences of adding, removing, gridding, saving and loading", "why_tests_cant": "Tests save and load a variable resolution grid once and compare; none removes or grids after loading.", "anchors": ["bathygrid/bgrid.py:BathyGrid.save", "bathygrid/bgrid.py:BathyGrid.load", "bathygrid/bgrid.py:BathyGrid.grid", "bathygrid/bgrid.py:BathyGrid.add_points", "bathygrid/bgrid.py:BathyGrid.remove_points", "bathygrid/backends.py:BaseStorage.save", "bathygrid/backends.py:BaseStorage.load"]}
{"id": "C113", "title": "A grid with an output folder can be continued from its folder", "statement": "Whatever was added, removed and gridded before, without calling save(): the grid loaded from its own output folder can be worked on like the grid in memory. Adding, removing and gridding return normally when they do in memory, the tiles hold exactly the soundings added and not removed in all the sessions, and gridding makes every layer the statistic of the soundings held.", "quantifier": "for all sequences of adding, removing, gridding and continuing from the folder", "why_tests_cant": "Tests load a folder and compare arrays; none removes points or grids in parallel in a grid that was loaded right after its first add_points.", "anchors": ["bathygrid/bgrid.py:BathyGrid._update_tiles", "bathygrid/bgrid.py:BathyGrid._remove_tile", "bathygrid/bgrid.py:BathyGrid._grid_parallel", "bathygrid/backends.py:BaseStorage.load"]}
{"id": "C114", "title": "Vertical references cannot be mixed", "statement": "If the grid has a vertical reference, add_points with a different one raises ValueError and changes nothing, unless both name MLLW. After any calls of add_points all soundings were added with the same vertical reference or all with one that names MLLW.", "quantifier": "for all sequences of calls of add_points with any vertical references and any points", "why_tests_cant": "Tests add points with one vertical reference; none looks at the grid after a refused call or starts without a reference.", "anchors": ["bathygrid/bgrid.py:BathyGrid._update_metadata", "bathygrid/bgrid.py:BathyGrid.add_points", "bathygrid/bgrid.py:BathyGrid.positive_up"]}
{"id": "C115", "title": "Densities per square metre add up", "statement": "density_per_square_meter lists one number for every cell with soundings; after grid() at one resolution these numbers times the area of a cell are the numbers of soundings in the cells and add up to the number of soundings in the grid. They are the densities that density_per_square_meter_vs_depth pairs with the depths.", "quantifier": "for all histories of a grid, all resolutions that divide the tile size", "why_tests_cant": "Tests check the list for one small grid.", "anchors": ["bathygrid/tile.py:SRTile.density_per_square_meter", "bathygrid/bgrid.py:BathyGrid.density_per_square_meter", "bathygrid/bgrid.py:BathyGrid.density_per_square_meter_vs_depth"]}
{"id": "C116", "title": "csv files list every cell once with all layers", "statement": "Export to csv writes one file for each resolution asked for. Its header is x, y and the layer names, with elevation in place of depth for positive up. It has exactly one line for every cell of the smallest rectangle of cells that contains all values of the first layer: the centre of the cell and the values of all layers there, the depth negated for positive up if the mean depth is above zero.", "quantifier": "for all histories of single and variable resolution grids, all resolutions, both signs", "why_tests_cant": "Tests compare the lines of one exported sample grid with stored lines.", "anchors": ["bathygrid/bgrid.py:BathyGrid._export_csv", "bathygrid/bgrid.py:BathyGrid.return_surf_xyz", "bathygrid/bgrid.py:BathyGrid.get_layers_by_name"]}
{"id": "C117", "title": "More soundings never make a shoalest depth deeper", "statement": "If one grid holds all soundings of another and more, both gridded with 'shoalest' at the same resolution: wherever the second has a depth the first has one that is not deeper, and the density of every cell is larger by exactly the number of additional soundings in it.", "quantifier": "for all sets of soundings, histories, tile sizes and both kinds of grids", "why_tests_cant": "A test adds one more line and looks at a few cells; a chart that gets deeper when data is added is a navigational hazard.", "anchors": ["bathygrid/tile.py:SRTile.grid", "bathygrid/algorithms.py:np_grid_shoalest", "bathygrid/bgrid.py:BathyGrid.grid", "bathygrid/bgrid.py:BathyGrid.get_layers_by_name"]}
{"id": "C118", "title": "Shoalest depths are never deeper than mean depths", "statement": "The same soundings gridded with 'shoalest' and with 'mean' at the same resolution: the same cells have depths, and the shoalest depth is at most the mean depth, in spite of rounding.", "quantifier": "for all sets of soundings, histories, tile sizes and both kinds of grids", "why_tests_cant": "Tests grid with each algorithm and compare with stored numbers; none relates the algorithms.", "anchors": ["bathygrid/algorithms.py:np_grid_shoalest", "bathygrid/algorithms.py:np_grid_mean", "bathygrid/bgrid.py:BathyGrid.grid"]}
{"id": "C119", "title": "Coarse cells agree with the fine cells in them", "statement": "The same soundings gridded at resolution r and at a multiple k*r: the shoalest depth of a coarse cell is the least of the depths of the k*k fine cells in it (no value if none has one), and its density is the sum of their densities.", "quantifier": "for all sets of soundings, histories, tile sizes, resolutions, multiples and both kinds of grids", "why_tests_cant": "Tests use one resolution at a time.", "anchors": ["bathygrid/tile.py:SRTile.grid", "bathygrid/algorithms.py:np_grid_shoalest", "bathygrid/bgrid.py:BathyGrid.grid"]}
{"id": "C120", "title": "Moving all soundings moves the grid", "statement": "If all soundings are moved by multiples of the resolution along x and y, every layer has in the moved cell the value it had in the cell before.", "quantifier": "for all sets of soundings, offsets, histories, tile sizes and both kinds of grids", "why_tests_cant": "Tests use soundings near the origin with positive coordinates.", "anchors": ["bathygrid/grids.py:BaseGrid._build_grid", "bathygrid/bgrid.py:BathyGrid.add_points", "bathygrid/bgrid.py:BathyGrid.grid", "bathygrid/bgrid.py:BathyGrid.get_layers_by_name"]}
{"id": "C121", "title": "A vertical offset changes depths only", "statement": "If all soundings are deeper by the same amount, every depth is deeper by that amount, up to one unit of the third decimal and exactly for multiples of 0.002, the same cells have depths, and densities and uncertainties are the same.", "quantifier": "for all sets of soundings, offsets, histories, tile sizes and both kinds of grids", "why_tests_cant": "Tests use depths that are round numbers.", "anchors": ["bathygrid/algorithms.py:np_grid_shoalest", "bathygrid/algorithms.py:np_grid_mean", "bathygrid/bgrid.py:BathyGrid.grid"]}
{"id": "C122", "title": "The resolution by density gives enough soundings per cell", "statement": "resolution_by_density counts the soundings in coarse cells. If more than three quarters of these hold soundings, the resolution is the finest of the table at which a cell holds 10 * (1 + noise factor) soundings: no resolution at which the densest coarse cell gives at most that many is coarser than the chosen one, and none at which the sparsest populated coarse cell gives at least that many is finer. Otherwise it is the resolution of the first depth band that reaches the mean depth. It is never larger than the tile.", "quantifier": "for all histories of a tile, all starting resolutions and positive noise factors, tiles whose size is a multiple of the coarse cell", "why_tests_cant": "Tests compare the resolution chosen for one set of soundings with a stored number; the case of partly filled tiles is not reached.", "anchors": ["bathygrid/tile.py:SRTile.resolution_by_density", "bathygrid/tile.py:SRTile._return_cell_counts"]}
{"id": "C123", "title": "Bands of exported rasters are named for what they hold", "statement": "A geotiff has one band for each of the layers depth, vertical_uncertainty and total_uncertainty of the grid, in their order, called Depth (Elevation for positive up), Vertical Uncertainty and Total Uncertainty; one of backscatter has the band Intensity. A BAG has the band Elevation and, if the grid has an uncertainty, Uncertainty, and states the first and last time of the grid if both are known. Elevations of a grid without depths are refused.", "quantifier": "for all grids, resolutions and chunk sizes", "why_tests_cant": "Tests look at the values of one exported sample, not at the names of its bands.", "anchors": ["bathygrid/bgrid.py:BathyGrid._export_geotiff", "bathygrid/bgrid.py:BathyGrid._export_bag", "bathygrid/bgrid.py:BathyGrid.get_chunks_of_tiles"]}
{"id": "C124", "title": "A csv file says what the soundings say", "statement": "The csv file of a grid gridded with mean or shoalest can be written. Each line is centred on a cell of the lattice and lists the depth, density and uncertainties of the soundings in that cell. The cell of every sounding has a line and no two lines are for the same cell. The densities listed add up to the number of soundings.", "quantifier": "for all histories of single and variable resolution grids whose layers are those the last gridding gave, and either sign of depths", "why_tests_cant": "Tests compare a few lines of one exported sample with stored text.", "anchors": ["bathygrid/bgrid.py:BathyGrid._export_csv", "bathygrid/bgrid.py:BathyGrid.get_layers_by_name", "bathygrid/bgrid.py:BathyGrid.grid"]}
{"id": "C125", "title": "Layer names are those of the last gridding", "statement": "After gridding with clear_existing, every tile has one resolution and return_layer_names lists, in this order, depth (intensity for single resolution grids of backscatter), density, and the vertical and horizontal uncertainties if the soundings have them; with CUBE depth, density, hypothesis_count, total_uncertainty and hypothesis_ratio. In any state in which no_grid is False the layers of the first gridded tile are listed.", "quantifier": "for all histories of single and variable resolution grids, all algorithms, with and without uncertainties", "why_tests_cant": "Tests list the names for one grid of each kind.", "anchors": ["bathygrid/bgrid.py:BathyGrid.return_layer_names", "bathygrid/tile.py:SRTile.new_grid", "bathygrid/tile.py:Tile.clear_grid"]}
{"id": "C126", "title": "The vertical reference of a BAG is found", "statement": "return_bag_vertical_wkt returns the text of the vertical one of the two coordinate references of the metadata, whichever comes first; without exactly two references or without a vertical one it is refused with ValueError. Setting the times of the BAG does not change the answer.", "quantifier": "for all metadata documents, all times", "why_tests_cant": "There is no test of this function.", "anchors": ["bathygrid/utilities.py:return_bag_vertical_wkt", "bathygrid/bgrid.py:_set_temporal_extents"]}
{"id": "C127", "title": "Pixels of exported rasters say what the soundings say", "statement": "The geotiff and the BAG of a grid gridded with mean or shoalest can be written. Every pixel of the depth band is the statistic of the depths of the soundings in its square, every pixel of the vertical uncertainty band the mean of their uncertainties, with the sign of depths asked for and 1000000 where there are no soundings. Every sounding lies in the square of a pixel with a value in each band.", "quantifier": "for all histories, both kinds of grids, tile sizes, resolutions, chunk dimensions and soundings within 999999", "why_tests_cant": "tests export a few soundings and look at a few pixels of the depth band", "anchors": ["bathygrid/bgrid.py:2274-2382", "bathygrid/bgrid.py:1126-1180"]}
{"id": "C128", "title": "The rasters of one export do not overlap", "statement": "In the files that an export of one resolution writes, no place lies in two pixels: neither in two pixels of one file nor in pixels of two files, however the grid is divided into files.", "quantifier": "for all grids gridded with mean or shoalest with any history, chunk sizes, signs and both formats; the chunks for all layers that can be queried", "why_tests_cant": "tests export grids that fit in one file, or count the files", "anchors": ["bathygrid/bgrid.py:1054-1180", "bathygrid/bgrid.py:2274-2315", "bathygrid/bgrid.py:2317-2382"]}
{"id": "C129", "title": "The grid of two surveys combines the grids of each", "statement": "Where the grid of all soundings and the grids of two parts of them have a cell at the same place: the densities of the parts add up to the density of all, the shoalest depth of all is the least of the two, and the mean depth and uncertainties of all lie between those of the parts and are their means weighted with the densities, up to the rounding to three decimals.", "quantifier": "for all grids of either kind with any history, and all ways to divide the soundings", "why_tests_cant": "tests grid one set of soundings; the relation concerns three grids", "anchors": ["bathygrid/tile.py:SRTile.grid", "bathygrid/algorithms.py:np_grid_mean", "bathygrid/algorithms.py:np_grid_shoalest", "bathygrid/bgrid.py:BathyGrid.add_points", "bathygrid/bgrid.py:BathyGrid.grid"]}
{"id": "C130", "title": "A cell depends only on the soundings in its square", "statement": "Two grids that hold the same soundings in the square of a cell have the same depth, density and uncertainties there, whatever soundings they hold elsewhere, however these are divided into tiles, containers and calls, and whatever was removed before.", "quantifier": "for all pairs of grids of either kind with any history", "why_tests_cant": "tests compare whole grids of a few soundings", "anchors": ["bathygrid/tile.py:SRTile.grid", "bathygrid/bgrid.py:BathyGrid.add_points", "bathygrid/bgrid.py:BathyGrid.remove_points", "bathygrid/bgrid.py:BathyGrid.grid", "bathygrid/bgrid.py:BathyGrid.get_layers_by_name"]}
{"id": "C131", "title": "A loaded grid answers queries like the saved grid", "statement": "A grid that was saved to a folder and loaded from it answers every query of the layers the gridding algorithms make exactly like the grid that was saved: the layers of the grid, trimmed or with coordinates, of its tiles, and the values at given locations. Neither query changes its grid, and a query that is refused for one is refused for the other with the same exception. The same holds for a grid that is loaded from the output folder it works in, after any of its calls.", "quantifier": "for all histories of single and variable resolution grids with any number of sessions, all lists of such layers, resolutions, nodata values, signs and locations", "why_tests_cant": "tests reload one grid of each kind and compare attributes and one or two layers", "anchors": ["bathygrid/backends.py:246-345", "bathygrid/backends.py:383-479", "bathygrid/bgrid.py:756-853", "bathygrid/bgrid.py:1189-1277", "bathygrid/bgrid.py:1747-1898", "bathygrid/tile.py:771-841"]}
{"id": "C132", "title": "A loaded grid gives the same chunks to exports", "statement": "The generator of the chunks that exports write to rasters yields for a loaded grid the same chunks, with the same geotransforms and arrays in the same order, as for the grid that was saved, or raises the same exception.", "quantifier": "for all histories as in the property before, all lists of standard layers, resolutions, nodata values, chunk sizes and orientations", "why_tests_cant": "tests ask for the chunks of grids that were never saved", "anchors": ["bathygrid/backends.py:246-345", "bathygrid/backends.py:383-479", "bathygrid/bgrid.py:1054-1187"]}
{"id": "C133", "title": "A loaded grid is exported to the same rasters", "statement": "A grid that was gridded anew, saved and loaded is exported as geotiff and as BAG to the same files as before: the same rasters with the same bands, pixels and geotransforms in the same order, or the same exception.", "quantifier": "for all histories of adding, removing, gridding, saving and loading, all folders saved to, all algorithms, chunk sizes, resolutions and signs, single and variable resolution", "why_tests_cant": "tests export grids that were never saved", "anchors": ["bathygrid/backends.py:246-345", "bathygrid/backends.py:383-479", "bathygrid/bgrid.py:2274-2382"]}
{"id": "C134", "title": "A loaded grid is exported to the same csv files", "statement": "A grid that was gridded anew, saved and loaded is exported as csv to the same files as before: the same columns and lines in the same order.", "quantifier": "for all histories of adding, removing, gridding, saving and loading, all folders saved to, all algorithms, resolutions and signs, single and variable resolution", "why_tests_cant": "tests export grids that were never saved, and never compare the columns of CUBE grids", "anchors": ["bathygrid/backends.py:246-345", "bathygrid/backends.py:383-479", "bathygrid/tile.py:340-352", "bathygrid/bgrid.py:2231-2272"]}
{"id": "C135", "title": "Removing a container touches only its own tiles", "statement": "remove_points(c) leaves the layout and the extents of the grid as they are and makes no tile. A tile without soundings of c is exactly as before, layers included. A tile with soundings of c and others stays, without the soundings of c and with its layers as last gridded (slopes dropped), and is marked as changed. A tile with no other soundings is gone.", "quantifier": "all reachable grid states, all container names; for variable resolution also for the tiles inside each sub-grid", "why_tests_cant": "tests remove from small grids and compare counts of points, not the other tiles", "anchors": ["bathygrid/bgrid.py:708-754", "bathygrid/tile.py:289-314"]}
{"id": "C136", "title": "The layers of single containers enclose the depths of all soundings", "statement": "After gridding with 'shoalest' or 'mean', each cell of the depth layer is also a cell of the layer of every container, and holds no value exactly if no container has one there. With 'shoalest' it is the least of the values that the layers of the containers have there; with 'mean' it is neither below all of them nor above all of them.", "quantifier": "for all histories of single and variable resolution grids, all numbers of containers whose names are not names of layers, all resolutions, cells and layer queries in between", "why_tests_cant": "tests ask for the layer of one container of a small grid and never compare it with the depths", "anchors": ["bathygrid/tile.py:364-395", "bathygrid/tile.py:431-465", "bathygrid/tile.py:771-841", "bathygrid/bgrid.py:BathyGrid.get_layers_by_name"]}
{"id": "C137", "title": "The cell count is the number of squares with soundings", "statement": "After gridding with 'mean' or 'shoalest' at resolution r, cell_count[r] is the number of squares of side r of the lattice through the origin that hold soundings, each counted once. So it does not depend on the tile sizes, on the kind of grid or on how the soundings came in. A grid with cells k times as long has no more cells, and at least one for k*k cells of the fine grid, so the area it covers does not shrink.", "quantifier": "for all histories of single and variable resolution grids, all resolutions and all layer queries in between", "why_tests_cant": "tests compare cell_count of two or three small grids with numbers", "anchors": ["bathygrid/bgrid.py:BathyGrid.cell_count", "bathygrid/tile.py:SRTile.cell_count"]}
{"id": "C138", "title": "A grid without soundings can be saved", "statement": "save(path) succeeds for every grid, also for one whose containers have all been removed, and the folder then loads as a grid without soundings.", "quantifier": "all reachable states of single and variable resolution grids, and all earlier contents of the folder", "why_tests_cant": "tests save grids that hold soundings", "anchors": ["bathygrid/backends.py:246-275", "bathygrid/backends.py:208-217", "bathygrid/bgrid.py:708-754"]}
{"id": "C139", "title": "The coverage area is the area of the squares with soundings", "statement": "After gridding a single or variable resolution grid with 'mean' or 'shoalest', clear_existing and a given resolution r that divides the tile (or subtile) size, coverage_area is r*r times the number of squares of side r of the lattice through the origin that hold soundings, within 0.0005 square metres per tile, and exactly if r*r is a whole number of thousandths of a square metre; density_count has one entry for each of these squares. So grids of the same soundings with different tile sizes, kinds and histories cover the same area if r*r is such a number. With cells k times as wide they then cover at least this area and at most k*k times as much.", "quantifier": "for all histories of single and variable resolution grids, all tile and subtile sizes that the resolution divides, all resolutions", "why_tests_cant": "tests compare coverage_area of a few small grids with numbers", "anchors": ["bathygrid/bgrid.py:287-298", "bathygrid/tile.py:203-221", "bathygrid/tile.py:103-121"]}
{"id": "C140", "title": "The extents are the smallest whole tiles around the soundings", "statement": "After any calls of add_points the extents of the grid are the smallest rectangle of whole tiles that contains all soundings added; so they do not depend on the order in which the soundings came in.", "quantifier": "for all sequences of successful calls of add_points to a new single or variable resolution grid", "why_tests_cant": "tests look at the extents after one or two calls", "anchors": ["bathygrid/grids.py:89-103", "bathygrid/grids.py:140-182", "bathygrid/bgrid.py:580-620"]}
{"id": "C141", "title": "More soundings never have fewer cells", "statement": "A grid whose soundings include those of another grid has at least as many cells at the same resolution. The grid of two surveys has at least as many cells as the grid of each, and at most as many as both together. No grid has more cells than soundings. With clear_existing and cells of a whole number of thousandths of a square metre, a grid with more soundings also covers at least the same area, and the grid of two surveys at most the areas of both together.", "quantifier": "for all histories, kinds and tile sizes of the grids compared, all resolutions, 'mean' and 'shoalest', and all layer queries in between", "why_tests_cant": "tests do not compare the cell counts of different grids", "anchors": ["bathygrid/bgrid.py:BathyGrid.cell_count", "bathygrid/tile.py:SRTile.cell_count"]}
