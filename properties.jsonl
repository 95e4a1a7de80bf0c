{"id": "C01", "title": "Neighbour case is exactly geometric contact", "statement": "For two cells that do not cross the antimeridian, get_neighbour_case(a,b) (and get_neighbour_case_bounds) returns direction d exactly when b touches a on side/corner d: a shared edge of positive length for N/E/S/W, a shared corner point for NE/SE/SW/NW, and returns 0 exactly when they touch in none of the eight ways.", "quantifier": "all pairs of non-degenerate boxes", "why_tests_cant": "infinitely many pairs of rational boxes; boundary equalities are exactly where a handful of examples miss", "anchors": [{"file": "meshiphi/mesh_generation/neighbour_graph.py", "symbols": ["get_neighbour_case", "get_neighbour_case_bounds"]}, {"file": "meshiphi/mesh_generation/direction.py", "symbols": ["Direction"]}]}
{"id": "C02", "title": "Neighbour case is antisymmetric", "statement": "get_neighbour_case(b,a) is always the negation of get_neighbour_case(a,b) (opposite compass direction), and no pair of cells has more than one case.", "quantifier": "all pairs of non-degenerate boxes; all pairs of cells of a global mesh of at least 3 columns", "why_tests_cant": "needs every pair, including touching-by-corner and wrap-around pairs", "anchors": [{"file": "meshiphi/mesh_generation/neighbour_graph.py", "symbols": ["get_neighbour_case", "get_global_mesh_neighbour_case"]}]}
{"id": "C03", "title": "Wrap-around contact in a global mesh", "statement": "In a global mesh (-180:180) whose cells are narrower than 180 degrees, get_neighbour_case(a,b) returns d exactly when b, shifted by some multiple of 360 degrees, touches a in direction d.", "quantifier": "all pairs of cells inside [-180,180], any widths below 180", "why_tests_cant": "the wrap is only visible for pairs on both sides of the antimeridian at every relative latitude", "anchors": [{"file": "meshiphi/mesh_generation/neighbour_graph.py", "symbols": ["get_neighbour_case", "on_global_bound", "get_global_mesh_neighbour_case"]}]}
{"id": "C04", "title": "Initial cells tile the region", "statement": "For a region whose extent is divisible by the cell size, the initial cellboxes are rows*cols cells of equal size, with id equal to list position, and every point of the region (west/south edge excluded, as in data trimming) lies in exactly one cell.", "quantifier": "all regions, cell sizes and points", "why_tests_cant": "grid sizes are unbounded", "anchors": [{"file": "meshiphi/mesh_generation/mesh_builder.py", "symbols": ["initialize_cellboxes", "validate_bounds", "__init__"]}]}
{"id": "C05", "title": "Initial neighbour graph is exact adjacency", "statement": "The neighbour graph created with the mesh lists cell j under direction d of cell i exactly when j touches i in direction d; every cell has all eight directions, no list has duplicates, and the keys are exactly the cell indices.", "quantifier": "all grid widths, grid heights, cell sizes of regional (non-antimeridian) meshes", "why_tests_cant": "grid sizes unbounded; corner/edge/interior interplay at every width", "anchors": [{"file": "meshiphi/mesh_generation/neighbour_graph.py", "symbols": ["initialise_neighbour_graph", "initialise_map"]}, {"file": "meshiphi/mesh_generation/mesh_builder.py", "symbols": ["__init__"]}]}
{"id": "C06", "title": "Initial global neighbour graph wraps around", "statement": "For a -180:180 mesh of at least 3 columns, after check_global_mesh the neighbour graph is exactly adjacency on the cylinder (longitude modulo 360).", "quantifier": "all global grids with at least 3 columns and any number of rows", "why_tests_cant": "all rows/columns must be linked consistently", "anchors": [{"file": "meshiphi/mesh_generation/mesh_builder.py", "symbols": ["check_global_mesh"]}, {"file": "meshiphi/mesh_generation/neighbour_graph.py", "symbols": ["add_neighbour"]}]}
{"id": "C07", "title": "Splitting keeps the neighbour graph exact (regional)", "statement": "Starting from any regional mesh and after any sequence of split_and_replace calls on live cells, the neighbour graph is exactly geometric adjacency of the live cells: sound, complete, duplicate free, in every direction.", "quantifier": "all grids, all finite split histories, all pairs of live cells", "why_tests_cant": "unbounded histories of splits, each altering neighbours of many sizes", "anchors": [{"file": "meshiphi/mesh_generation/mesh_builder.py", "symbols": ["split_and_replace", "fill_se_map", "fill_ne_map", "fill_nw_map", "fill_sw_neighbour_map"]}, {"file": "meshiphi/mesh_generation/neighbour_graph.py", "symbols": ["update_neighbours", "update_corner_neighbours", "remove_node_from_neighbours", "remove_node"]}]}
{"id": "C08", "title": "Splitting keeps the neighbour graph exact (global)", "statement": "Same as C07 for a -180:180 mesh of at least 3 columns, with adjacency modulo 360 degrees.", "quantifier": "all global grids with at least 3 columns, all finite split histories", "why_tests_cant": "as C07 plus wrap-around", "anchors": [{"file": "meshiphi/mesh_generation/mesh_builder.py", "symbols": ["split_and_replace"]}, {"file": "meshiphi/mesh_generation/neighbour_graph.py", "symbols": ["get_global_mesh_neighbour_case"]}]}
{"id": "C09", "title": "Splitting never raises and never leaves dangling ids", "statement": "split_and_replace on a live cell never raises; afterwards the graph keys are exactly the ids of live cells, every id in every list is a live cell, a cell is never its own neighbour, ids stay equal to list positions and are never reused.", "quantifier": "all meshes as in C07/C08, all finite split histories", "why_tests_cant": "KeyError/ValueError from dict and list.remove depend on the whole history", "anchors": [{"file": "meshiphi/mesh_generation/mesh_builder.py", "symbols": ["split_and_replace"]}, {"file": "meshiphi/mesh_generation/cellbox.py", "symbols": ["split"]}]}
{"id": "C10", "title": "Splitting keeps an exact tiling", "statement": "split produces four quarter-size cells (NW, NE, SW, SE) that partition the parent; hence after any history of splits every point of the region lies in exactly one live cell, and total area is preserved.", "quantifier": "all cells, all histories, all points", "why_tests_cant": "points and histories are unbounded", "anchors": [{"file": "meshiphi/mesh_generation/cellbox.py", "symbols": ["split", "create_splitted_cell_boxes"]}, {"file": "meshiphi/utils.py", "symbols": ["longitude_domain"]}]}
{"id": "C11", "title": "Neighbour relation is symmetric", "statement": "At every moment, j is listed under direction d of i exactly when i is listed under the opposite direction of j.", "quantifier": "all histories of construction and splitting", "why_tests_cant": "history dependent", "anchors": [{"file": "meshiphi/mesh_generation/mesh_builder.py", "symbols": ["split_and_replace"]}, {"file": "meshiphi/mesh_generation/neighbour_graph.py", "symbols": ["update_neighbours"]}]}
{"id": "C12", "title": "Adaptive splitting terminates within the depth limit", "statement": "split_to_depth(D) terminates although it appends to the list it iterates over, and no live cell ends deeper than D.", "quantifier": "all meshes, all data, all homogeneity oracles, all D", "why_tests_cant": "termination and depth bound over unbounded loops", "anchors": [{"file": "meshiphi/mesh_generation/mesh_builder.py", "symbols": ["split_to_depth", "build_environmental_mesh"]}, {"file": "meshiphi/mesh_generation/cellbox.py", "symbols": ["set_split_depth"]}]}
{"id": "C13", "title": "Adaptive splitting reaches a fixed point", "statement": "After split_to_depth(D) no live cell shallower than D still satisfies should_split for the full list of data sources.", "quantifier": "all meshes, data sources, conditions, D", "why_tests_cant": "the loop revisits a growing list once per data source; coverage of every appended cell needs an invariant", "anchors": [{"file": "meshiphi/mesh_generation/mesh_builder.py", "symbols": ["split_to_depth"]}, {"file": "meshiphi/mesh_generation/cellbox.py", "symbols": ["should_split"]}]}
{"id": "C14", "title": "Only heterogeneous cells are split", "statement": "Every cell that was split was shallower than D and satisfied should_split for a prefix of the data sources; with D=0 or no splitting conditions the mesh is unchanged, and cells that are not split keep id, bounds and data.", "quantifier": "all meshes, data, D", "why_tests_cant": "quantifies over whole runs", "anchors": [{"file": "meshiphi/mesh_generation/mesh_builder.py", "symbols": ["split_to_depth"]}]}
{"id": "C15", "title": "should_split decision rule", "statement": "should_split is False when any applicable condition answers HOM or MIN, False when all answer CLR (or there is none), True otherwise; it does not depend on the order of sources or conditions, and agrees with should_split_breadth_first when all sources are considered.", "quantifier": "all lists of homogeneity answers, all permutations", "why_tests_cant": "unbounded lists", "anchors": [{"file": "meshiphi/mesh_generation/cellbox.py", "symbols": ["should_split", "should_split_breadth_first"]}]}
{"id": "C16", "title": "Each datapoint belongs to exactly one cell", "statement": "Trimming is half-open (min, max]; splitting a cell partitions its datapoints, so in a mesh obtained by any splits every datapoint of the region is in the data subset of exactly one live cell, and counts add up.", "quantifier": "all datasets, all regional meshes and split histories", "why_tests_cant": "datapoints on shared edges; unbounded data", "anchors": [{"file": "meshiphi/dataloaders/scalar/abstract_scalar.py", "symbols": ["trim_datapoints"]}, {"file": "meshiphi/mesh_generation/cellbox.py", "symbols": ["split"]}, {"file": "meshiphi/mesh_generation/mesh_builder.py", "symbols": ["initialize_meta_data_subsets"]}]}
{"id": "C17", "title": "Trimming across the antimeridian", "statement": "For bounds that cross the antimeridian (long_min > long_max) trim_datapoints keeps exactly the points east of long_min or west of long_max, for DataFrames as for xarray datasets.", "quantifier": "all bounds with long_min > long_max, all points", "why_tests_cant": "needs all bounds/points; existing tests only trim away from the antimeridian", "anchors": [{"file": "meshiphi/dataloaders/scalar/abstract_scalar.py", "symbols": ["trim_datapoints", "trim_datapoints_from_df", "trim_datapoints_from_xr"]}, {"file": "meshiphi/dataloaders/vector/abstract_vector.py", "symbols": ["trim_datapoints"]}]}
{"id": "C18", "title": "Homogeneity condition classifies by fraction", "statement": "With at least min_dp datapoints, get_hom_condition answers CLR when at most lower_bound of the points exceed the threshold, otherwise HOM when at least upper_bound do, otherwise HET; with split_lock the HOM-at-upper-bound case locks the cell (HOM) and without it the answer is CLR.", "quantifier": "all datasets, thresholds and bounds", "why_tests_cant": "unbounded data and rational fractions, boundary equalities", "anchors": [{"file": "meshiphi/dataloaders/scalar/abstract_scalar.py", "symbols": ["get_hom_condition"]}]}
{"id": "C19", "title": "Too few datapoints", "statement": "A source with fewer than min_dp points in a cell answers 'MIN' (documented), so that cell is never split.", "quantifier": "all datasets, all min_dp", "why_tests_cant": "relation between loader answer and split decision over all combinations of sources", "anchors": [{"file": "meshiphi/dataloaders/scalar/abstract_scalar.py", "symbols": ["get_hom_condition"]}, {"file": "meshiphi/dataloaders/vector/abstract_vector.py", "symbols": ["get_hom_condition"]}, {"file": "meshiphi/mesh_generation/cellbox.py", "symbols": ["should_split"]}]}
{"id": "C20", "title": "Aggregates are bounded and order independent", "statement": "get_value returns MIN <= MEAN <= MAX and MIN <= MEDIAN <= MAX, COUNT equals the number of points, and no aggregate depends on the order of datapoints.", "quantifier": "all non-empty finite datasets, all permutations", "why_tests_cant": "unbounded data, all orders", "anchors": [{"file": "meshiphi/dataloaders/scalar/abstract_scalar.py", "symbols": ["get_value", "get_value_from_df"]}]}
{"id": "C21", "title": "Missing values are filled from the nearest ancestor", "statement": "With value_fill_types 'parent', the aggregated value of a cell without data is that of its nearest ancestor with data, NaN only if no ancestor has data; with a numeric fill type it is that value.", "quantifier": "all ancestor chains, all data", "why_tests_cant": "chains are unbounded", "anchors": [{"file": "meshiphi/mesh_generation/cellbox.py", "symbols": ["aggregate"]}]}
{"id": "C22", "title": "Missing vector components are filled", "statement": "As C21 for each component of a vector source.", "quantifier": "all ancestor chains, vector data, fill types", "why_tests_cant": "chains are unbounded; tests never use a non-parent fill with vectors", "anchors": [{"file": "meshiphi/mesh_generation/cellbox.py", "symbols": ["check_vector_data"]}]}
{"id": "C23", "title": "Repeated data names: first non-NaN source wins", "statement": "When several sources share a data name, aggregate keeps the first non-NaN value in source order ('Overwriting only NaN values'), for scalar and vector sources.", "quantifier": "all lists of sources", "why_tests_cant": "unbounded source lists", "anchors": [{"file": "meshiphi/mesh_generation/cellbox.py", "symbols": ["aggregate"]}]}
{"id": "C24", "title": "Built mesh cells and graph agree", "statement": "build_environmental_mesh returns exactly one aggregated cellbox per live cell, with the same id and bounds, and the ids are exactly the keys of the neighbour graph.", "quantifier": "all meshes, data and depth limits", "why_tests_cant": "composition over whole runs", "anchors": [{"file": "meshiphi/mesh_generation/mesh_builder.py", "symbols": ["build_environmental_mesh"]}]}
{"id": "C25", "title": "JSON round trip", "statement": "Loading the JSON of a mesh yields the same cells (id, bounds, data) and the same neighbour graph; writing it again yields the same JSON.", "quantifier": "all meshes not crossing the antimeridian (and which parts survive when crossing)", "why_tests_cant": "all bounds and data dictionaries, including reserved keys", "anchors": [{"file": "meshiphi/mesh_generation/environment_mesh.py", "symbols": ["load_from_json", "to_json", "cellboxes_to_json"]}, {"file": "meshiphi/mesh_generation/aggregated_cellbox.py", "symbols": ["from_json", "to_json"]}, {"file": "meshiphi/mesh_generation/neighbour_graph.py", "symbols": ["from_json"]}]}
{"id": "C26", "title": "Refining a loaded mesh keeps its graph exact", "statement": "EnvironmentMesh.split_and_replace on a regional mesh loaded from JSON keeps the graph exactly the geometric adjacency of its cells, for any sequence of splits, copies the parent's data to the children and gives them fresh ids.", "quantifier": "all regional loaded meshes, all finite split histories", "why_tests_cant": "unbounded histories", "anchors": [{"file": "meshiphi/mesh_generation/environment_mesh.py", "symbols": ["split_and_replace", "sim_split_cellbox"]}, {"file": "meshiphi/mesh_generation/neighbour_graph.py", "symbols": ["get_neighbour_case_bounds", "remove_node_and_update_neighbours"]}]}
{"id": "C27", "title": "Refining a loaded global mesh keeps wrap-around neighbours", "statement": "As C26 for a mesh spanning -180:180.", "quantifier": "all global loaded meshes and splits", "why_tests_cant": "tests never split a loaded global mesh at the antimeridian", "anchors": [{"file": "meshiphi/mesh_generation/environment_mesh.py", "symbols": ["split_and_replace"]}, {"file": "meshiphi/mesh_generation/neighbour_graph.py", "symbols": ["from_json"]}]}
{"id": "C28", "title": "split_points refines around the point", "statement": "For a point inside the mesh, split_points(lat,long,depth) terminates without error and the cell containing the point is then at most 1/2^depth of the base cell size.", "quantifier": "all points strictly inside the mesh, all depths", "why_tests_cant": "points on midlines; unbounded depth", "anchors": [{"file": "meshiphi/mesh_generation/environment_mesh.py", "symbols": ["split_points", "_split_loc", "query_inside_mesh", "query_index"]}]}
{"id": "C29", "title": "Point queries are unambiguous", "statement": "query_index returns the unique cell whose interior contains the point; it never reports more than one; query_inside_mesh is true exactly when such a cell exists.", "quantifier": "all tilings, all points", "why_tests_cant": "all points/meshes", "anchors": [{"file": "meshiphi/mesh_generation/environment_mesh.py", "symbols": ["query_index", "query_inside_mesh"]}, {"file": "meshiphi/mesh_generation/aggregated_cellbox.py", "symbols": ["contains_point"]}]}
{"id": "C30", "title": "Merging keeps ids unique", "statement": "After merge_mesh every cell id is unique, ids are exactly the keys of the merged graph and ids of kept cells of the first mesh are unchanged.", "quantifier": "all pairs of compatible meshes", "why_tests_cant": "arbitrary id sets", "anchors": [{"file": "meshiphi/mesh_generation/environment_mesh.py", "symbols": ["merge_mesh", "increment_ids", "get_max_cellbox_id"]}, {"file": "meshiphi/mesh_generation/neighbour_graph.py", "symbols": ["increment_ids"]}]}
{"id": "C31", "title": "Merging replaces exactly the covered cells", "statement": "After merge_mesh the cells are exactly the first mesh's cells not inside the second mesh's bounds followed by the second mesh's cells; when the second mesh is aligned and inside, the result is again a tiling.", "quantifier": "all pairs of meshes", "why_tests_cant": "all alignments", "anchors": [{"file": "meshiphi/mesh_generation/environment_mesh.py", "symbols": ["merge_mesh", "get_cellboxes_within_bounds", "remove_cellboxes_within_bounds"]}]}
{"id": "C32", "title": "Merging keeps the graph exact", "statement": "If both meshes are regional with exact graphs and the second is aligned with the first's base grid, the merged graph is exactly the adjacency of the merged cells.", "quantifier": "all pairs of compatible meshes", "why_tests_cant": "all refinement patterns on both sides of the seam", "anchors": [{"file": "meshiphi/mesh_generation/environment_mesh.py", "symbols": ["merge_mesh", "tie_northern", "tie_southern", "tie_eastern", "tie_western"]}]}
{"id": "C33", "title": "Merging does not modify the other mesh", "statement": "merge_mesh leaves the mesh passed as argument unchanged.", "quantifier": "all pairs of meshes", "why_tests_cant": "aliasing of objects and dictionaries", "anchors": [{"file": "meshiphi/mesh_generation/environment_mesh.py", "symbols": ["merge_mesh", "increment_ids"]}]}
{"id": "C34", "title": "update_cellbox validates its index", "statement": "update_cellbox raises ValueError for every index outside [0, number of cells) and otherwise changes only the cell at that index.", "quantifier": "all integers", "why_tests_cant": "all indices", "anchors": [{"file": "meshiphi/mesh_generation/environment_mesh.py", "symbols": ["update_cellbox"]}]}
{"id": "C35", "title": "Longitude arithmetic", "statement": "longitude_domain maps every longitude into [-180,180], differs from it by a multiple of 360 and is idempotent; longitude_distance is symmetric, lies in [0,180], is invariant under adding 360 and is 0 exactly for equal meridians.", "quantifier": "all longitudes", "why_tests_cant": "all reals", "anchors": [{"file": "meshiphi/utils.py", "symbols": ["longitude_domain", "longitude_distance"]}]}
{"id": "C36", "title": "Boundary measures and quarter split", "statement": "For every valid boundary the width is in (0,360], the centre lies inside, and split() returns four equal boundaries that partition it, also across the antimeridian.", "quantifier": "all boundaries", "why_tests_cant": "all bounds, in particular crossing ones whose midpoint passes 180", "anchors": [{"file": "meshiphi/mesh_generation/boundary.py", "symbols": ["get_width", "getcx", "getcy", "split", "validate_bounds"]}]}
{"id": "C37", "title": "Polygon string round trip", "statement": "from_poly_string(to_poly_string(b)) denotes the same region as b (equal bounds when b does not start at +180 or end at -180).", "quantifier": "all boundaries", "why_tests_cant": "four branches, all coordinates", "anchors": [{"file": "meshiphi/mesh_generation/boundary.py", "symbols": ["to_polygon", "to_poly_string", "from_poly_string"]}, {"file": "meshiphi/mesh_generation/aggregated_cellbox.py", "symbols": ["from_json"]}]}
{"id": "C38", "title": "Boundary equality", "statement": "Two Boundary objects compare equal exactly when their latitude, longitude and time ranges are equal.", "quantifier": "all pairs of boundaries", "why_tests_cant": "all pairs", "anchors": [{"file": "meshiphi/mesh_generation/boundary.py", "symbols": ["__eq__"]}]}
{"id": "C39", "title": "Accepted configurations tile the region", "statement": "Any region and cell size accepted by the config validator and MeshBuilder.validate_bounds yields a grid whose cells tile the region without overlap.", "quantifier": "all configurations", "why_tests_cant": "all widths including full 360 degrees", "anchors": [{"file": "meshiphi/mesh_generation/mesh_builder.py", "symbols": ["validate_bounds", "initialize_cellboxes"]}, {"file": "meshiphi/config_validation/config_validator.py", "symbols": ["validate_mesh_config"]}]}
{"id": "C40", "title": "Date parsing", "statement": "parse_datetime returns an equivalent YYYY-MM-DD date for every valid date, is idempotent, resolves TODAY+n / TODAY-n to the n-shifted current date and rejects everything else; every time string accepted by the config validator is accepted by it.", "quantifier": "all strings", "why_tests_cant": "all strings", "anchors": [{"file": "meshiphi/mesh_generation/boundary.py", "symbols": ["parse_datetime"]}, {"file": "meshiphi/config_validation/config_validator.py", "symbols": ["assert_valid_time"]}]}
{"id": "C41", "title": "Dataloader factory", "statement": "get_dataloader selects the same loader whatever the letter case of the name, rejects unknown names and missing required parameters, and normalising the file inputs twice equals doing it once.", "quantifier": "all names and parameter dictionaries", "why_tests_cant": "all strings and dictionaries", "anchors": [{"file": "meshiphi/dataloaders/factory.py", "symbols": ["get_dataloader", "translate_file_input"]}]}
{"id": "C42", "title": "Default parameters never override the user", "statement": "add_default_params fills every required parameter, keeps every parameter given by the user, and is idempotent.", "quantifier": "all parameter dictionaries", "why_tests_cant": "all subsets of given parameters", "anchors": [{"file": "meshiphi/dataloaders/scalar/abstract_scalar.py", "symbols": ["add_default_params"]}, {"file": "meshiphi/dataloaders/scalar/shape.py", "symbols": ["add_default_params"]}]}
{"id": "C43", "title": "Mesh comparison", "statement": "Comparing a mesh with itself reports no difference, and compare_cellbox_boundaries reports exactly the cells present in only one of the two meshes.", "quantifier": "all pairs of meshes", "why_tests_cant": "all pairs", "anchors": [{"file": "meshiphi/mesh_validation/mesh_comparator.py", "symbols": ["compare_cellbox_boundaries", "compare_neighbour_graph_values"]}]}
{"id": "C44", "title": "Validator slices partition the data", "statement": "The data slices the mesh validator compares against the cells are the points of each cell, each source point being used for exactly one cell.", "quantifier": "all datasets and meshes", "why_tests_cant": "points on shared edges", "anchors": [{"file": "meshiphi/mesh_validation/full_mesh_validator.py", "symbols": ["slice_data"]}]}
{"id": "C45", "title": "Raster export sampling", "statement": "to_tif samples nlines rows of ncols pixels, each at the centre-aligned position of the cell of the mesh extent it represents, so each pixel carries the value of the mesh at its own location.", "quantifier": "all resolutions (nlines x ncols)", "why_tests_cant": "all resolutions", "anchors": [{"file": "meshiphi/mesh_generation/environment_mesh.py", "symbols": ["to_tif", "generate_samples", "get_geo_transform"]}]}
{"id": "C46", "title": "Seasonal lookup tables", "statement": "For every date in the time range, the thickness and density tables hold exactly the seasonal value of that date's month for each region.", "quantifier": "all date ranges", "why_tests_cant": "all date ranges", "anchors": [{"file": "meshiphi/dataloaders/lut/thickness.py", "symbols": ["import_data"]}, {"file": "meshiphi/dataloaders/lut/density.py", "symbols": ["import_data"]}]}
{"id": "C47", "title": "Splitting across the antimeridian (regional)", "statement": "Same as C07 for a regional mesh whose longitude range crosses the antimeridian.", "quantifier": "all regional meshes crossing the antimeridian, all split histories", "why_tests_cant": "needs cells on both sides of 180", "anchors": [{"file": "meshiphi/mesh_generation/neighbour_graph.py", "symbols": ["get_neighbour_case"]}, {"file": "meshiphi/mesh_generation/mesh_builder.py", "symbols": ["split_and_replace"]}, {"file": "meshiphi/mesh_generation/boundary.py", "symbols": ["get_width"]}]}
{"id": "C48", "title": "Data added to a built mesh is confined to each cell", "statement": "add_dataloader makes each cell aggregate exactly the new source's points inside that cell.", "quantifier": "all meshes and datasets", "why_tests_cant": "all data", "anchors": [{"file": "meshiphi/mesh_generation/mesh_builder.py", "symbols": ["add_dataloader"]}, {"file": "meshiphi/mesh_generation/metadata.py", "symbols": ["Metadata"]}]}
{"id": "C49", "title": "Floating point adjacency", "statement": "In IEEE double arithmetic cells that share an edge are recognised as neighbours after any splits of a grid.", "quantifier": "all double coordinates; all dyadic grids", "why_tests_cant": "rounding differs per coordinate", "anchors": [{"file": "meshiphi/mesh_generation/neighbour_graph.py", "symbols": ["get_neighbour_case"]}, {"file": "meshiphi/mesh_generation/boundary.py", "symbols": ["get_width", "get_height"]}, {"file": "meshiphi/mesh_generation/cellbox.py", "symbols": ["create_splitted_cell_boxes"]}]}
{"id": "C50", "title": "Splitting is local", "statement": "split_and_replace changes the neighbour lists only of cells that touched the split cell; all other cells keep their neighbour map, bounds, id and data.", "quantifier": "all histories", "why_tests_cant": "frame condition over all other cells", "anchors": [{"file": "meshiphi/mesh_generation/mesh_builder.py", "symbols": ["split_and_replace"]}]}
{"id": "C51", "title": "Mesh configurations accepted", "statement": "validate_mesh_config accepts exactly the complete configurations (every required entry present and of its type, no unknown entries in region, data sources and splitting, acceptable dates, extents a whole number of cells), whether given as a dictionary or as the path of a JSON file.", "quantifier": "all JSON values and files", "why_tests_cant": "unbounded space of JSON documents; acceptance must be characterised in both directions", "anchors": [{"file": "meshiphi/config_validation/config_validator.py", "symbols": ["validate_mesh_config", "flexi_json_input"]}, {"file": "meshiphi/config_validation/mesh_schema.py", "symbols": ["mesh_schema"]}]}
{"id": "C52", "title": "Vessel and route configurations accepted", "statement": "validate_vessel_config and validate_route_config accept exactly the configurations with all required entries of the right types and ranges, given as a dictionary or as a path.", "quantifier": "all JSON values and files", "why_tests_cant": "unbounded space of JSON documents; acceptance must be characterised in both directions", "anchors": [{"file": "meshiphi/config_validation/config_validator.py", "symbols": ["validate_vessel_config", "validate_route_config"]}, {"file": "meshiphi/config_validation/vessel_schema.py", "symbols": ["vessel_schema"]}, {"file": "meshiphi/config_validation/route_schema.py", "symbols": ["route_schema"]}]}
{"id": "C53", "title": "Fill type of a source", "statement": "check_value_fill_type returns the configured value when it is a number, 'parent' or 'Nan', and 'parent' for every other configured value.", "quantifier": "all parameter dictionaries", "why_tests_cant": "all values a configuration can hold", "anchors": [{"file": "meshiphi/mesh_generation/mesh_builder.py", "symbols": ["check_value_fill_type"]}]}
{"id": "C54", "title": "Rounding to significant figures", "statement": "round_to_sigfig returns, for a number or a list of numbers, the nearest number with the given number of significant figures.", "quantifier": "all numbers and all numbers of figures", "why_tests_cant": "rounding at powers of ten and halfway points, all types of input", "anchors": [{"file": "meshiphi/utils.py", "symbols": ["round_to_sigfig"]}]}
{"id": "C55", "title": "Sampled validation compares like with like", "statement": "validate_mesh samples positions inside the mesh and compares every data point of each sample square with the value of the cell containing it.", "quantifier": "all meshes, sources and samples", "why_tests_cant": "alignment of two lists built separately, points on edges, split meshes", "anchors": [{"file": "meshiphi/mesh_validation/mesh_validator.py", "symbols": ["validate_mesh", "get_value_from_data", "get_values_from_mesh", "get_range_end"]}, {"file": "meshiphi/mesh_validation/sampler.py", "symbols": ["generate_samples"]}]}
{"id": "C56", "title": "Unpacking of lookup tables", "statement": "verify_data turns a table whose geometries are polygons or multipolygons into one row per polygon with the value of its row, each exactly once.", "quantifier": "all tables", "why_tests_cant": "all index patterns: the effect depends on repeated index labels and on multipolygons among them", "anchors": [{"file": "meshiphi/dataloaders/lut/abstract_lut.py", "symbols": ["verify_data"]}]}
{"id": "C57", "title": "Values of lookup tables", "statement": "For the polygons that meet a cell, get_value returns the least, greatest or area-weighted mean value or their number, and NaN if there is none.", "quantifier": "all tables and cells", "why_tests_cant": "all arrangements of polygons, including those that only touch the cell", "anchors": [{"file": "meshiphi/dataloaders/lut/abstract_lut.py", "symbols": ["get_value", "trim_datapoints", "calculate_coverage"]}]}
{"id": "C58", "title": "Homogeneity of lookup tables", "statement": "A cell is HET exactly if splitting at boundaries is asked for and the edge of a polygon crosses it, HOM if it has no data and splitting is locked, MIN if it has no data otherwise, and CLR in all other cases.", "quantifier": "all tables, cells and conditions", "why_tests_cant": "all arrangements of polygons", "anchors": [{"file": "meshiphi/dataloaders/lut/abstract_lut.py", "symbols": ["get_hom_condition"]}]}
{"id": "C59", "title": "From configuration to mesh file, end to end", "statement": "For a configuration the validator accepts, with scalar sources of documented aggregation types, MeshBuilder(config).build_environmental_mesh() always returns; the mesh written to JSON and loaded again has the same cells and data; its cells tile the configured region; its graph lists exactly the contacts; every cell is quartered exactly where the points in its bounds call for it and the depth allows; and it holds, under every source name, the documented aggregate of exactly the points in its bounds, filled as configured.", "quantifier": "all configurations, files, loader classes and data", "why_tests_cant": "composition of validation, parameter handling, grid, splitting, aggregation and serialisation over all configurations and data", "anchors": [{"file": "meshiphi/mesh_generation/mesh_builder.py", "symbols": ["__init__", "initialize_meta_data", "build_environmental_mesh", "check_value_fill_type"]}, {"file": "meshiphi/mesh_generation/environment_mesh.py", "symbols": ["to_json", "load_from_json"]}, {"file": "meshiphi/config_validation/config_validator.py", "symbols": ["validate_mesh_config"]}, {"file": "meshiphi/dataloaders/factory.py", "symbols": ["get_dataloader"]}]}
{"id": "C60", "title": "Synthetic shapes", "statement": "A circle, rectangle, gradient or checkerboard source holds one value at each point of an evenly spaced grid of nx by ny points over the region: multiplier within radius of the centre (by default the middle of the region) and 0 elsewhere; multiplier within the rectangle of the given width and height; a value rising linearly from 0 to multiplier; alternating squares of the given grid size.", "quantifier": "all regions, resolutions, centres, sizes and multipliers", "why_tests_cant": "all resolutions and positions of the shape, among them centres on the equator or the prime meridian", "anchors": [{"file": "meshiphi/dataloaders/scalar/shape.py", "symbols": ["gen_circle", "gen_rectangle", "gen_gradient", "gen_checkerboard"]}, {"file": "meshiphi/dataloaders/vector/vector_shape.py", "symbols": ["gen_circle", "gen_rectangle", "gen_gradient"]}]}
{"id": "C61", "title": "Downsampling aggregates blocks", "statement": "Downsampling a dataset by (m, n) yields one value per block of n latitudes by m longitudes: the aggregate of the values of that block by the configured aggregation type, missing if the block has none; blocks at the far ends may be smaller; no value is used twice or dropped.", "quantifier": "all grids, factors, missing values and aggregation types", "why_tests_cant": "all sizes relative to the factors and all patterns of missing values", "anchors": [{"file": "meshiphi/dataloaders/scalar/abstract_scalar.py", "symbols": ["downsample"]}, {"file": "meshiphi/dataloaders/vector/abstract_vector.py", "symbols": ["downsample"]}]}
{"id": "C62", "title": "A constructed source holds the data of its region", "statement": "After construction a source holds exactly those imported points that lie in the initial region, and none if none lies there; trimming it to the cells of the mesh then gives the points of each cell.", "quantifier": "all data, regions and both data kinds", "why_tests_cant": "all arrangements of data and region, among them single points, lines and regions across the antimeridian", "anchors": [{"file": "meshiphi/dataloaders/scalar/abstract_scalar.py", "symbols": ["__init__", "calculate_coverage", "trim_datapoints"]}, {"file": "meshiphi/dataloaders/vector/abstract_vector.py", "symbols": ["__init__", "calculate_coverage", "trim_datapoints"]}]}
{"id": "C63", "title": "Data names", "statement": "A source without a configured data name takes the name of its only data column (all of them, for a vector source); with a configured name its data columns are renamed in order, positions and values unchanged; anything that does not fit is rejected.", "quantifier": "all tables and names", "why_tests_cant": "all tables and all names, among them names that are already columns", "anchors": [{"file": "meshiphi/dataloaders/scalar/abstract_scalar.py", "symbols": ["get_data_col_name", "set_data_col_name"]}, {"file": "meshiphi/dataloaders/vector/abstract_vector.py", "symbols": ["get_data_col_name", "get_data_col_name_list", "set_data_col_name", "set_data_col_name_list"]}]}
{"id": "C64", "title": "Curl and difference from the mean vector", "statement": "On a grid of at least 2 by 2 points calc_curl gives dv/dx - du/dy per grid step, exact for affine fields; collapsed it gives the value of greatest magnitude or the mean; calc_dmag gives the distance of every vector from the mean vector; get_hom_condition splits where more than the given fraction of magnitudes exceeds the threshold. All this holds of DataFrames and datasets alike.", "quantifier": "all vector fields on all grids", "why_tests_cant": "all fields and grid sizes", "anchors": [{"file": "meshiphi/dataloaders/vector/abstract_vector.py", "symbols": ["calc_curl", "calc_dmag", "_create_vector_meshgrid", "get_hom_condition"]}, {"file": "meshiphi/utils.py", "symbols": ["curl", "divergence"]}]}
{"id": "C65", "title": "Readable durations", "statement": "convert_decimal_days states the duration to within half a unit of the last unit printed, with fewer than 24 hours and fewer than 60 minutes.", "quantifier": "all durations", "why_tests_cant": "all durations, among them those just below a whole hour or day", "anchors": [{"file": "meshiphi/utils.py", "symbols": ["convert_decimal_days"]}]}
{"id": "C66", "title": "Months and date ranges", "statement": "frac_of_month returns the fraction of the days of the given month lying between the two dates, between 0 and 1, and rejects dates of another month; date_range yields every day from the first date up to, and not including, the last one, once each and in order.", "quantifier": "all dates", "why_tests_cant": "all pairs of dates, among them different years and reversed ranges", "anchors": [{"file": "meshiphi/utils.py", "symbols": ["frac_of_month", "date_range"]}]}
{"id": "C67", "title": "Data files chosen by date", "statement": "ERA5, DUACS and AMSR sources read exactly the files whose name holds a date within the time range, ends included, in the order given, and raise an error if there is none or if a name holds no date. The ECMWF wave source reads, of the last run made before the start of the range, exactly the files for times within the range. The IceNet source reads the last file dated before the start. All this whatever the directories of the files.", "quantifier": "all lists of file names and all time ranges", "why_tests_cant": "all orders of files, all directories and dates, among them dates on the ends of the range and dots in directory names", "anchors": [{"file": "meshiphi/dataloaders/scalar/era5_sig_wave_height.py", "symbols": ["import_data"]}, {"file": "meshiphi/dataloaders/vector/duacs_current.py", "symbols": ["import_data"]}, {"file": "meshiphi/dataloaders/scalar/amsr.py", "symbols": ["import_data"]}, {"file": "meshiphi/dataloaders/scalar/ecmwf_sig_wave_height.py", "symbols": ["import_data"]}, {"file": "meshiphi/dataloaders/scalar/icenet.py", "symbols": ["import_data"]}]}
{"id": "C68", "title": "Days of IceNet forecasts", "statement": "The IceNet source reads a prediction for every day of the time range, ends included, once each and in order, all from the last forecast made before the range, and only predictions within the forecast's reach; otherwise it raises an error.", "quantifier": "all time ranges and all days of forecasts", "why_tests_cant": "all ranges and gaps between forecasts, among them ranges of one day", "anchors": [{"file": "meshiphi/dataloaders/scalar/icenet.py", "symbols": ["import_data"]}]}
{"id": "C69", "title": "Imported data", "statement": "What a source imports are exactly the points of its files within the region, each with its values converted as documented (sign of depths, percentages, magnitude of winds, means over time), and with longitudes expressed between -180 and 180, whatever the order of the axes and the convention of longitudes of the file.", "quantifier": "all files (grids of any size and frames of any number of rows) and all regions", "why_tests_cant": "all orders of axes, conventions of longitude and positions of points, among them points on the antimeridian", "anchors": [{"file": "meshiphi/dataloaders/scalar/era5_sig_wave_height.py", "symbols": ["import_data"]}, {"file": "meshiphi/dataloaders/scalar/era5_wind_mag.py", "symbols": ["import_data"]}, {"file": "meshiphi/dataloaders/scalar/bsose_depth.py", "symbols": ["import_data"]}, {"file": "meshiphi/dataloaders/scalar/bsose_sea_ice.py", "symbols": ["import_data"]}, {"file": "meshiphi/dataloaders/scalar/baltic_sea_ice.py", "symbols": ["import_data"]}, {"file": "meshiphi/dataloaders/scalar/gebco.py", "symbols": ["import_data"]}, {"file": "meshiphi/dataloaders/scalar/modis.py", "symbols": ["import_data"]}, {"file": "meshiphi/dataloaders/scalar/scalar_csv.py", "symbols": ["import_data"]}, {"file": "meshiphi/dataloaders/vector/era5_wind.py", "symbols": ["import_data"]}, {"file": "meshiphi/dataloaders/vector/baltic_current.py", "symbols": ["import_data"]}, {"file": "meshiphi/dataloaders/vector/duacs_current.py", "symbols": ["import_data"]}, {"file": "meshiphi/dataloaders/vector/north_sea_current.py", "symbols": ["import_data"]}, {"file": "meshiphi/dataloaders/vector/sose.py", "symbols": ["import_data"]}, {"file": "meshiphi/dataloaders/vector/vector_csv.py", "symbols": ["import_data"]}]}
{"id": "C70", "title": "Aggregated vectors", "statement": "Of the data points of a cell, MIN and MAX give the vector of a point of least or greatest magnitude, MEAN and STD the mean and standard deviation of each component, COUNT the number of known vectors; the value is unknown only when no vector is known; DataFrames and Datasets agree, however many files were read; and the magnitudes added to the data are those of its vectors.", "quantifier": "all data (any number of rows, files and missing components), both kinds of data and all aggregation types", "why_tests_cant": "any pattern of missing components, ties of magnitude, numbers of files and orders of dimensions", "anchors": [{"file": "meshiphi/dataloaders/vector/abstract_vector.py", "symbols": ["get_value", "add_mag_dir"]}, {"file": "meshiphi/dataloaders/vector/vector_csv.py", "symbols": ["import_data"]}]}
{"id": "C71", "title": "Random fields", "statement": "Random fields are given at the points of a square grid over the region; scalar values range exactly from multiplier*min+offset to multiplier*max+offset, following the noise between the thresholds; binary fields are 1 exactly where the field reaches the threshold; magnitudes of vectors lie between the given ones; the Fourier coordinates are those of least magnitude.", "quantifier": "all noises, all sizes, thresholds, ranges and regions", "why_tests_cant": "the noise is random: only a proof covers all of it, with all sizes, thresholds and regions", "anchors": [{"file": "meshiphi/dataloaders/scalar/scalar_grf.py", "symbols": ["import_data"]}, {"file": "meshiphi/dataloaders/vector/vector_grf.py", "symbols": ["import_data"]}, {"file": "meshiphi/utils.py", "symbols": ["gaussian_random_field", "fftind"]}]}
{"id": "C72", "title": "Reprojected data", "statement": "Reprojection puts each data point with known values exactly once at the longitude and latitude its projected coordinates stand for, with its time and values unchanged and the old coordinates removed; the source then keeps exactly the points of the files of the period that lie in the region.", "quantifier": "all tables and grids (any rows, columns and names), all projections, all regions and periods", "why_tests_cant": "any projection, any names of coordinate columns and any patterns of missing values", "anchors": [{"file": "meshiphi/dataloaders/scalar/abstract_scalar.py", "symbols": ["reproject", "__init__"]}, {"file": "meshiphi/dataloaders/vector/abstract_vector.py", "symbols": ["reproject"]}, {"file": "meshiphi/dataloaders/scalar/amsr.py", "symbols": ["import_data"]}, {"file": "meshiphi/dataloaders/scalar/visual_iced.py", "symbols": ["import_data"]}]}
{"id": "C73", "title": "Look-up tables read from files", "statement": "A look-up table read from files gives each place of the region exactly the values of the polygons of the files that contain it, and NaN (for a boolean value the opposite) exactly where no polygon does; a cell in one polygon has that polygon's value.", "quantifier": "all geometries with union, difference and parts as of sets, all files, polygons and values, all regions", "why_tests_cant": "any number of overlapping polygons of any shape; tests use a few", "anchors": [{"file": "meshiphi/dataloaders/lut/lut_csv.py", "symbols": ["import_data"]}, {"file": "meshiphi/dataloaders/lut/lut_geojson.py", "symbols": ["import_data"]}, {"file": "meshiphi/dataloaders/lut/lut_shapefile.py", "symbols": ["import_data"]}, {"file": "meshiphi/dataloaders/lut/scotland_ncmpa.py", "symbols": ["import_data"]}, {"file": "meshiphi/dataloaders/lut/abstract_lut.py", "symbols": ["__init__", "verify_data", "trim_datapoints", "get_value"]}]}
{"id": "C74", "title": "Forecast data end to end", "statement": "A source of forecasts holds, for the region and each day (hour) of the period, exactly the values predicted by the last forecast made before the period.", "quantifier": "all lists of file names, all contents of the files, all regions and periods", "why_tests_cant": "the choice of file, run and lead time interact over unboundedly many files and dates; there are no tests of these loaders", "anchors": [{"file": "meshiphi/dataloaders/scalar/icenet.py", "symbols": ["import_data"]}, {"file": "meshiphi/dataloaders/scalar/ecmwf_sig_wave_height.py", "symbols": ["import_data"]}, {"file": "meshiphi/dataloaders/vector/oras5_current.py", "symbols": ["import_data"]}]}
{"id": "C75", "title": "A mesh file says how to build its mesh again", "statement": "Rebuilding a mesh from its own file (rebuild_mesh) gives the same mesh and the same configuration, on any day and whatever else is in the data directories, as long as the files read the first time still hold the same data; a merged mesh is rebuilt merged.", "quantifier": "all configurations, all lists of loaders and parameters, all dates including dates relative to today, all directory contents", "why_tests_cant": "the configuration is mutated in place by the builder, the factory and every loader's defaults; that this reaches a fixed point for every loader and set of parameters is not a property of samples, and the existing tests rebuild only from fixed dates", "anchors": [{"file": "meshiphi/cli.py", "symbols": ["rebuild_mesh_cli"]}, {"file": "meshiphi/mesh_generation/mesh_builder.py", "symbols": ["__init__", "initialize_meta_data"]}, {"file": "meshiphi/dataloaders/factory.py", "symbols": ["get_dataloader", "translate_file_input"]}, {"file": "meshiphi/mesh_generation/environment_mesh.py", "symbols": ["merge_mesh", "to_json"]}]}
{"id": "C76", "title": "Merging a directory of meshes", "statement": "Merging all files of a directory into a mesh writes a mesh file that loads, tiles the same region, has exact neighbours and shows, at every point, the cell and data of the last file covering the point; the order in which the directory is listed does not matter; if any file cannot be merged nothing is written.", "quantifier": "all meshes, any number of files, all orders, every point of the region", "why_tests_cant": "the result depends on the listing order of the operating system and on how earlier merges changed the grid; a test merges one mesh, once, and compares a file", "anchors": [{"file": "meshiphi/cli.py", "symbols": ["merge_mesh_cli"]}, {"file": "meshiphi/mesh_generation/environment_mesh.py", "symbols": ["merge_mesh", "validate_merge_compatibility", "load_from_json", "to_json"]}, {"file": "meshiphi/mesh_generation/aggregated_cellbox.py", "symbols": ["from_json", "to_json"]}]}
{"id": "C77", "title": "GeoJSON export and save", "statement": "Exporting a mesh to GeoJSON gives one feature per cell, in order, with the geometry and id of the cell and for each data name (or the one layer asked for) the number of the cell: the mean of a list, 1 for a flag that is set, null for a flag that is not set and for nan, infinite or missing values. save accepts the formats JSON, GEOJSON, TIF and PNG in any case, refuses others, and leaves the file alone when it fails.", "quantifier": "all meshes with any data names and mixtures of values, every layer, every format text", "why_tests_cant": "how a value is written depends on the types of the values of all other cells under the same name; tests export one built mesh with uniform columns", "anchors": [{"file": "meshiphi/mesh_generation/environment_mesh.py", "symbols": ["to_geojson", "to_png", "save"]}, {"file": "meshiphi/cli.py", "symbols": ["export_mesh_cli"]}]}
{"id": "C78", "title": "Default colours of an exported image", "statement": "The default colour table of a GeoTIFF gives its four colours at strictly increasing thresholds inside the range of the data, for any data.", "quantifier": "all arrays of values with any gaps", "why_tests_cant": "thresholds are truncated to integers, so they coincide only for particular ranges of values; a test looks at one image", "anchors": [{"file": "meshiphi/mesh_generation/environment_mesh.py", "symbols": ["set_colour"]}]}
{"id": "C79", "title": "From data files to the values of cells", "statement": "Building from a validated configuration whose sources are scalar csv files or netCDF grids (GEBCO, Baltic sea ice, BSOSE depth and ice, ERA5 waves and wind speed) ends with a mesh in which every cell that is not further split holds, under the name of each source, the aggregate of exactly those rows of the files that lie in the cell and the period, converted to the documented units and longitudes, and otherwise the fill value or what its parent held; cells are split as the conditions say about those rows.", "quantifier": "all configurations, regions, file contents, file lists and units; any square root and projection", "why_tests_cant": "data are cut, renamed, shifted, converted and aggregated in a dozen steps, each dropping rows under its own rule; only a statement over all rows rules out losing or double counting one", "anchors": [{"file": "meshiphi/dataloaders/scalar/abstract_scalar.py", "symbols": ["__init__", "import_data", "trim_datapoints", "_set_data_name", "get_value"]}, {"file": "meshiphi/dataloaders/scalar/scalar_csv.py", "symbols": ["import_data"]}, {"file": "meshiphi/dataloaders/scalar/gebco.py", "symbols": ["import_data"]}, {"file": "meshiphi/dataloaders/scalar/bsose_sea_ice.py", "symbols": ["import_data"]}, {"file": "meshiphi/dataloaders/scalar/era5_sig_wave_height.py", "symbols": ["import_data"]}, {"file": "meshiphi/mesh_generation/mesh_builder.py", "symbols": ["build_environmental_mesh"]}]}
{"id": "C80", "title": "The test automation runs the tests of changed files and reports them", "statement": "meshiphi_test runs, each once, exactly the test files registered for the names of the files the tested branch changes (regression or unit tests as selected, both by default), reports for every test pytest summarises its file, name and status, and the statistics count the passed and all tests of each file.", "quantifier": "all repositories, branches, changes, flags, iteration orders of sets and outputs of pytest", "why_tests_cant": "what is run depends on a chain of text manipulations (git output, file names, pytest's summary) and on the iteration order of sets; the automation itself has no tests", "anchors": [{"file": "meshiphi/test_automation/test_automater.py", "symbols": ["__init__", "_run_tests", "parse_pytest_stdout", "get_diff_filenames", "get_relevant_tests", "summarise_test_stats"]}, {"file": "meshiphi/__init__.py", "symbols": ["REGRESSION_TESTS_BY_FILE", "UNIT_TESTS_BY_FILE"]}, {"file": "meshiphi/cli.py", "symbols": ["meshiphi_test_cli"]}]}
{"id": "C81", "title": "The size of a boundary is its great-circle diagonal over the square root of two", "statement": "Boundary.calc_size is the length in metres of the shortest way on a globe of radius 6371 km between the south-west and north-east corners, divided by the square root of two, also when the boundary crosses the antimeridian.", "quantifier": "all boundaries", "why_tests_cant": "the haversine formula is compared with values of the same formula; that it is the angle between two directions is a statement about all real coordinates", "anchors": [{"file": "meshiphi/mesh_generation/boundary.py", "symbols": ["calc_size"]}]}
{"id": "C82", "title": "Which waypoints are accepted", "statement": "validate_waypoints accepts exactly the csv files and DataFrames that have the columns Name, Lat, Long, Source and Destination, at least one waypoint marked X as source and one as destination, and a number within the range of latitudes and longitudes for every waypoint; everything else is refused.", "quantifier": "all csv files, DataFrames, index names, and ways of reading numbers, flags and missing values", "why_tests_cant": "the type pandas gives a column depends on all of its cells, and the index of a DataFrame counts as a column; a sample of good and bad tables shows neither", "anchors": [{"file": "meshiphi/config_validation/config_validator.py", "symbols": ["validate_waypoints"]}, {"file": "meshiphi/config_validation/waypoints_schema.py", "symbols": ["waypoints_columns"]}]}
{"id": "C83", "title": "Plots of a mesh", "statement": "to_png paints, for each configured colour map in turn, every cell in the colour for the position of its value between the least and the greatest of the mesh, and then, for each configured flag, exactly the cells where it is set.", "quantifier": "all meshes, regions, parameters and colour maps", "why_tests_cant": "plots are looked at, if at all; that constant or infinite values spoil all colours only shows on such meshes", "anchors": [{"file": "meshiphi/mesh_plotting/mesh_plotter.py", "symbols": ["__init__", "plot_bool", "plot_cmap"]}, {"file": "meshiphi/mesh_generation/environment_mesh.py", "symbols": ["to_png"]}]}
{"id": "C84", "title": "Validating vector fields", "statement": "validate_vector compares every source point with the vector of the cell it lies in, once, and reports the mean and the root mean square of the lengths of the differences.", "quantifier": "all meshes tiling a region, all source points, all pairs of column names", "why_tests_cant": "the double counting of points on cell edges depends on where source points fall on the mesh's grid", "anchors": [{"file": "meshiphi/mesh_validation/full_mesh_validator.py", "symbols": ["validate_vector", "slice_data"]}]}
{"id": "C85", "title": "Meshes kept of a test run", "statement": "save_tests copies to the output folder exactly the meshes, with their plots, of the tests asked for (passed, failed, in error) whose new mesh differs from the old one, removes the others, and touches no other file.", "quantifier": "all test results, directories, listing orders and pairs of meshes", "why_tests_cant": "it is the tool that runs the tests; nothing tests what it removes", "anchors": [{"file": "meshiphi/test_automation/test_automater.py", "symbols": ["save_tests", "compare_meshes", "extract_test_meshes"]}]}
{"id": "C86", "title": "How a cell is written in the mesh file", "statement": "The entry of a cell in the mesh file gives its id, its data, and a centre and half sizes (cx, cy, dcx, dcy) from which its bounds follow; the centre lies in the cell.", "quantifier": "all cells, including those across the antimeridian, with any data", "why_tests_cant": "the tests compare files with earlier files; the special positions (halfway across the antimeridian, data with reserved names) are not among them", "anchors": [{"file": "meshiphi/mesh_generation/aggregated_cellbox.py", "symbols": ["to_json", "contains_point"]}, {"file": "meshiphi/mesh_generation/boundary.py", "symbols": ["getcx", "getcy", "getdcx", "getdcy", "get_width", "get_height"]}]}
{"id": "C87", "title": "Meshes generated from scalars and vectors", "statement": "For every validated configuration whose sources are scalars and vectors with names of their own, generation ends with a mesh that can be written and read back; its cells tile the region, are quartered where and only where the conditions on scalars (thresholds) and vectors (difference from the mean) together call for it, and hold each scalar and each component of each vector as aggregated over the cell's bounds or else over the nearest ancestor's.", "quantifier": "all configurations, all numbers and orders of scalar and vector sources, all data", "why_tests_cant": "the regression tests have a handful of fixed configurations; the interaction of conditions of different kinds and of names across sources is unbounded", "anchors": [{"file": "meshiphi/mesh_generation/cellbox.py", "symbols": ["aggregate", "check_vector_data", "should_split"]}, {"file": "meshiphi/mesh_generation/mesh_builder.py", "symbols": ["initialize_meta_data", "build_environmental_mesh"]}, {"file": "meshiphi/dataloaders/vector/abstract_vector.py", "symbols": ["get_value", "get_hom_condition"]}]}
{"id": "C88", "title": "From files of scalars and vectors to the values of cells", "statement": "For every validated configuration whose sources are scalars and vectors in csv files or in netCDF files (North Sea and DUACS currents, ERA5 winds and wave directions, and the scalar kinds of C79), each with names of its own, generation ends with a mesh that survives writing and reading, and every cell is quartered and holds values exactly as called for by all the rows of those files, whatever is cut away, renamed or reordered when they are read.", "quantifier": "all configurations, all numbers and orders of sources, all contents of the files, all regions not crossing the antimeridian", "why_tests_cant": "the path from a file to a cell's value passes through loading, trimming, renaming, conversion, aggregation and splitting; tests fix one file of each kind", "anchors": [{"file": "meshiphi/dataloaders/vector/abstract_vector.py", "symbols": ["__init__", "add_mag_dir", "get_data_name", "set_data_col_name"]}, {"file": "meshiphi/dataloaders/vector/vector_csv.py", "symbols": ["import_data"]}, {"file": "meshiphi/dataloaders/vector/duacs_current.py", "symbols": ["import_data"]}, {"file": "meshiphi/dataloaders/vector/north_sea_current.py", "symbols": ["import_data"]}, {"file": "meshiphi/dataloaders/vector/era5_wind.py", "symbols": ["import_data"]}, {"file": "meshiphi/dataloaders/vector/era5_wave_direction_vector.py", "symbols": ["import_data"]}, {"file": "meshiphi/mesh_generation/mesh_builder.py", "symbols": ["build_environmental_mesh"]}]}
{"id": "C89", "title": "From a configuration across the antimeridian to a mesh file and back", "statement": "For every validated configuration of a region that crosses the antimeridian, generation ends with a mesh that survives writing and reading: its cells tile the region on the globe, its graph lists exactly the cells that touch, and every cell is quartered where and only where the points in it on the globe call for it and holds under every name the documented aggregate of those points.", "quantifier": "all configurations of regions crossing the antimeridian, all numbers and orders of sources, all data", "why_tests_cant": "tests have no region across the antimeridian; the wrapped comparisons of longitudes in trimming, splitting, neighbours and polygons only meet in whole runs", "anchors": [{"file": "meshiphi/mesh_generation/mesh_builder.py", "symbols": ["__init__", "build_environmental_mesh", "split_to_depth", "split_and_replace"]}, {"file": "meshiphi/mesh_generation/boundary.py", "symbols": ["to_polygon", "split"]}, {"file": "meshiphi/mesh_generation/cellbox.py", "symbols": ["aggregate", "should_split"]}, {"file": "meshiphi/mesh_generation/environment_mesh.py", "symbols": ["load_from_json", "to_json"]}, {"file": "meshiphi/dataloaders/scalar/abstract_scalar.py", "symbols": ["trim_datapoints", "get_value", "get_hom_condition"]}]}
{"id": "C90", "title": "Meshes from scalars, vectors and look-up tables", "statement": "For every validated configuration whose sources are scalars, vectors and look-up tables, generation ends with a mesh that survives writing and reading: its cells tile the region with exactly their contacts, every cell is quartered where and only where the conditions of points and of tables together call for it, and it holds under the name of every table the summary of the values of the polygons meeting it, or the configured fill value; the table's value at every place of the region is that of its files.", "quantifier": "all configurations, all numbers and orders of sources, all tables and files, all geometries lawful in the stated sense", "why_tests_cant": "tests check single tables on single cells; that a table trimmed for a parent still holds all the polygons of its quarters, and that edges and points together decide every split, concerns all nestings of cells", "anchors": [{"file": "meshiphi/dataloaders/lut/abstract_lut.py", "symbols": ["__init__", "trim_datapoints", "get_value", "get_hom_condition"]}, {"file": "meshiphi/dataloaders/lut/lut_csv.py", "symbols": ["import_data"]}, {"file": "meshiphi/dataloaders/lut/lut_geojson.py", "symbols": ["import_data"]}, {"file": "meshiphi/dataloaders/lut/lut_shapefile.py", "symbols": ["import_data"]}, {"file": "meshiphi/dataloaders/lut/scotland_ncmpa.py", "symbols": ["import_data"]}, {"file": "meshiphi/mesh_generation/mesh_builder.py", "symbols": ["__init__", "build_environmental_mesh", "split_to_depth"]}, {"file": "meshiphi/mesh_generation/cellbox.py", "symbols": ["aggregate", "should_split", "split"]}]}
{"id": "C91", "title": "From files of every kind to the mesh", "statement": "For every validated configuration that mixes scalars, vectors and look-up tables read from csv, netCDF, GeoJSON and shape files or made from the dates, generation ends with a mesh that survives writing and reading; its cells tile the region with exactly their contacts; every cell is quartered and holds values exactly as called for by the rows and polygons of all the files, with every parameter left out of the configuration taken at its documented default.", "quantifier": "all configurations, all numbers, kinds and orders of sources, all files, all geometries lawful in the stated sense", "why_tests_cant": "tests read single files of single kinds; whether sources of all kinds together keep out of each other's way concerns all mixtures, orders and nestings", "anchors": [{"file": "meshiphi/dataloaders/factory.py", "symbols": ["get_dataloader", "translate_file_input"]}, {"file": "meshiphi/dataloaders/lut/abstract_lut.py", "symbols": ["__init__", "add_default_params"]}, {"file": "meshiphi/dataloaders/scalar/abstract_scalar.py", "symbols": ["__init__"]}, {"file": "meshiphi/dataloaders/vector/abstract_vector.py", "symbols": ["__init__"]}, {"file": "meshiphi/mesh_generation/mesh_builder.py", "symbols": ["__init__", "build_environmental_mesh"]}]}
{"id": "C92", "title": "Looking up cells of a Mesh", "statement": "A Mesh lists exactly its unsplit cells, each once and in order; the cell looked up for a point of the region is the one around it; data points added to the Mesh go each to exactly one cell.", "quantifier": "all regions, cell sizes, histories of splits, points and data frames", "why_tests_cant": "The look-ups are called by no test and by nothing in the package; whether they can work at all depends on which attributes every CellBox of every reachable mesh has.", "anchors": [{"file": "meshiphi/mesh_generation/mesh.py", "symbols": ["Mesh.add_data_points", "Mesh.get_cellboxes", "Mesh.get_cellbox"]}, {"file": "meshiphi/mesh_generation/cellbox.py", "symbols": ["CellBox"]}, {"file": "meshiphi/mesh_generation/aggregated_cellbox.py", "symbols": ["AggregatedCellBox.contains_point"]}]}
{"id": "C93", "title": "Meshes from configured shapes", "statement": "A validated configuration whose sources are synthetic shapes with parameters of the right kinds, or their documented defaults, builds a mesh whose cells are quartered and valued as the points of the shapes call for, and which survives writing and reading.", "quantifier": "all validated configurations of shapes, regions, cell sizes, resolutions, multipliers, radii, sizes and centres", "why_tests_cant": "The whole way from the parameters over the generated grid to the values of cells depends on continuous parameters; tests build a few shapes with fixed parameters.", "anchors": [{"file": "meshiphi/dataloaders/scalar/shape.py", "symbols": ["ShapeDataLoader"]}, {"file": "meshiphi/dataloaders/vector/vector_shape.py", "symbols": ["VectorShapeDataLoader"]}, {"file": "meshiphi/dataloaders/scalar/abstract_scalar.py", "symbols": ["ScalarDataLoader.__init__"]}, {"file": "meshiphi/dataloaders/vector/abstract_vector.py", "symbols": ["VectorDataLoader.__init__"]}, {"file": "meshiphi/dataloaders/factory.py", "symbols": ["DataLoaderFactory.get_dataloader"]}]}
{"id": "C94", "title": "Sessions of the command line tools", "statement": "In any session of create_mesh, rebuild_mesh, export_mesh and merge_mesh, files that are no command's output stay as they are; building, rebuilding and merging write a complete mesh or nothing; a mesh that was created can after any other commands be rebuilt or exported to the same file, and merged with others to the mesh of C76 with all their configurations; and standard input is read like a file.", "quantifier": "all sequences of commands, arguments, contents of the disk, days and data sources", "why_tests_cant": "The tools interact through files over arbitrarily long sequences of commands on different days; tests call the functions behind the tools once, and none calls the tools.", "anchors": [{"file": "meshiphi/cli.py", "symbols": ["get_args", "create_mesh_cli", "rebuild_mesh_cli", "export_mesh_cli", "merge_mesh_cli"]}, {"file": "meshiphi/mesh_generation/environment_mesh.py", "symbols": ["EnvironmentMesh.save", "EnvironmentMesh.to_json", "EnvironmentMesh.load_from_json", "EnvironmentMesh.merge_mesh"]}]}
{"id": "C95", "title": "Random fields in the whole way to the mesh", "statement": "Configurations that also ask for Gaussian random fields (masks, scalars, vectors) build: with any generator of noise that is as long as it should be and not constant, every cell holds the aggregate of exactly the points of the field within it, the field being the noise scaled, thresholded, limited and scaled again as configured, beside all sources of C91, and cells are split by them as configured.", "quantifier": "all configurations, regions, parameters of fields, generators of noise, other sources", "why_tests_cant": "The fields are random: tests can compare with a fixed seed at most, and the tests of the project do not build meshes from fields at all.", "anchors": [{"file": "meshiphi/dataloaders/scalar/scalar_grf.py", "symbols": ["ScalarGRFDataLoader"]}, {"file": "meshiphi/dataloaders/vector/vector_grf.py", "symbols": ["VectorGRFDataLoader"]}, {"file": "meshiphi/dataloaders/factory.py", "symbols": ["DataLoaderFactory.get_dataloader"]}, {"file": "meshiphi/mesh_generation/mesh_builder.py", "symbols": ["MeshBuilder.__init__"]}]}
{"id": "C96", "title": "Sea ice on projected grids and of forecasts in the whole way to the mesh", "statement": "Configurations that also ask for the sea ice of AMSR, IceNet or Visual_Ice build: every cell holds the aggregate of exactly the known values of the AMSR files dated within the period, of the chart in percent, both where the projection puts them, or of the predictions of the last forecast made before the period for all its days but the last, beside all sources of C95; cells are split by them as configured.", "quantifier": "all configurations, regions, projections, file lists, file contents, other sources", "why_tests_cant": "The project's tests read these loaders, if at all, one fixed file at a time; nothing follows a projected grid through file choice, reprojection, trimming, splitting and aggregation to the cells.", "anchors": [{"file": "meshiphi/dataloaders/scalar/amsr.py", "symbols": ["AMSRDataLoader"]}, {"file": "meshiphi/dataloaders/scalar/icenet.py", "symbols": ["IceNetDataLoader"]}, {"file": "meshiphi/dataloaders/scalar/visual_iced.py", "symbols": ["VisualIcedDataLoader"]}, {"file": "meshiphi/dataloaders/scalar/abstract_scalar.py", "symbols": ["ScalarDataLoader.__init__", "ScalarDataLoader.reproject"]}, {"file": "meshiphi/mesh_generation/mesh_builder.py", "symbols": ["MeshBuilder.__init__"]}]}
{"id": "C97", "title": "Wind directions and MODIS in the whole way to the mesh", "statement": "Configurations that also ask for the wind directions of ERA5 build: every cell holds the aggregate of exactly the directions in [0, 360), each opposite to the vector of its two components, of the files dated within the period, beside all sources of C96; a cell all of whose winds come from about the same direction holds about that direction; configurations that name MODIS build.", "quantifier": "all configurations, regions, file lists, file contents, other sources", "why_tests_cant": "The project's tests give no wind direction source to a mesh and never build one with MODIS; none compares a cell's direction with the directions of the winds in it.", "anchors": [{"file": "meshiphi/dataloaders/scalar/era5_wind_dir.py", "symbols": ["ERA5WindDirDataLoader"]}, {"file": "meshiphi/dataloaders/scalar/modis.py", "symbols": ["MODISDataLoader"]}, {"file": "meshiphi/dataloaders/scalar/abstract_scalar.py", "symbols": ["ScalarDataLoader.__init__", "ScalarDataLoader.get_value"]}, {"file": "meshiphi/mesh_generation/mesh_builder.py", "symbols": ["MeshBuilder.__init__"]}]}
{"id": "C98", "title": "Downsampled grids in the whole way to the mesh", "statement": "Configurations whose netCDF sources of C79 ask for downsampling by any factors build: the grid's points within the region are taken in blocks from the least latitude and longitude, each block stands at the mean of its coordinates with the aggregate of its values, and every cell holds the aggregate of exactly the blocks in it, beside all sources of C97; no cell holds a value beyond those of the file's points in it.", "quantifier": "all configurations, regions, factors, file contents, other sources", "why_tests_cant": "The project's tests downsample fixed arrays at most; how blocks, trimming, splitting and aggregation work together in cells is never compared with the file's points.", "anchors": [{"file": "meshiphi/dataloaders/scalar/abstract_scalar.py", "symbols": ["ScalarDataLoader.__init__", "ScalarDataLoader.downsample", "ScalarDataLoader.trim_datapoints"]}, {"file": "meshiphi/dataloaders/scalar/gebco.py", "symbols": ["GEBCODataLoader"]}, {"file": "meshiphi/mesh_generation/mesh_builder.py", "symbols": ["MeshBuilder.__init__"]}]}
{"id": "C99", "title": "ECMWF wave heights and ORAS5 currents in the whole way to the mesh", "statement": "Configurations naming wave heights of ECMWF or currents of ORAS5 beside any sources of C98 build: every cell holds the aggregate of exactly the heights in it that the last run before the period forecasts for the hours from its first midnight to that of its last day, and of the currents at the points in it.", "quantifier": "all configurations, regions, periods, file names and contents, other sources; pandas before and after version 2", "why_tests_cant": "The project has no tests of these loaders; the choice among runs, the order of hours and the installed pandas interact with the region, the period and the splitting.", "anchors": [{"file": "meshiphi/dataloaders/scalar/ecmwf_sig_wave_height.py", "symbols": ["ECMWFSigWaveHeightDataLoader.import_data"]}, {"file": "meshiphi/dataloaders/vector/oras5_current.py", "symbols": ["ORAS5CurrentDataLoader.import_data"]}, {"file": "meshiphi/dataloaders/scalar/abstract_scalar.py", "symbols": ["ScalarDataLoader.__init__"]}, {"file": "meshiphi/mesh_generation/mesh_builder.py", "symbols": ["MeshBuilder.__init__"]}]}
{"id": "C100", "title": "Downsampled vectors in the whole way to the mesh", "statement": "Configurations naming vectors on grids with downsample_factors beside any sources of C99 build: every cell holds the aggregate of exactly the blocks whose middle is in it, each block holding the aggregates of its components.", "quantifier": "all configurations, regions, factors, file contents, vector loaders of netCDF files, other sources", "why_tests_cant": "The project tests downsampling on single loaders only; blocks interact with the trimming, the naming of components, the homogeneity conditions and the splitting.", "anchors": [{"file": "meshiphi/dataloaders/vector/abstract_vector.py", "symbols": ["VectorDataLoader.downsample", "VectorDataLoader.__init__", "VectorDataLoader.get_value"]}, {"file": "meshiphi/mesh_generation/mesh_builder.py", "symbols": ["MeshBuilder.__init__"]}]}
{"id": "C101", "title": "Downsampled wave heights in the whole way to the mesh", "statement": "Configurations naming ECMWF wave heights with downsample_factors beside any sources of C100 build: of the last forecast run before the period, each forecast in the period is taken in blocks from the least latitude and longitude of its file, and every cell holds the aggregate of exactly the blocks, over all those forecasts, whose middle is in it.", "quantifier": "all configurations, regions, factors, file names and contents, other sources, both kinds of pandas", "why_tests_cant": "The project has no test of this loader; blocks are formed before the trimming to the region, after the concatenation of the hours and the reversal of the latitudes.", "anchors": [{"file": "meshiphi/dataloaders/scalar/ecmwf_sig_wave_height.py", "symbols": ["ECMWFSigWaveHeightDataLoader.import_data"]}, {"file": "meshiphi/dataloaders/scalar/abstract_scalar.py", "symbols": ["ScalarDataLoader.downsample", "ScalarDataLoader.__init__"]}, {"file": "meshiphi/mesh_generation/mesh_builder.py", "symbols": ["MeshBuilder.__init__"]}]}
{"id": "C102", "title": "Downsampled wind directions, ORAS5 currents and sea ice in the whole way to the mesh", "statement": "Configurations naming wind directions of ERA5, currents of ORAS5, AMSR or Visual_Ice with downsample_factors beside any sources of C101 build: what is in the region is taken in blocks, and every cell holds the aggregate of exactly the blocks whose middle is in it.", "quantifier": "all configurations, regions, factors, file lists and contents, other sources", "why_tests_cant": "The project has no test that downsamples one of these sources; the outcome depends on the factors, the grid of the file, the region and the splitting together.", "anchors": [{"file": "meshiphi/dataloaders/scalar/era5_wind_dir.py", "symbols": ["ERA5WindDirDataLoader.import_data"]}, {"file": "meshiphi/dataloaders/vector/oras5_current.py", "symbols": ["ORAS5CurrentDataLoader.import_data"]}, {"file": "meshiphi/dataloaders/scalar/amsr.py", "symbols": ["AMSRDataLoader"]}, {"file": "meshiphi/dataloaders/scalar/visual_iced.py", "symbols": ["VisualIcedDataLoader"]}, {"file": "meshiphi/dataloaders/scalar/abstract_scalar.py", "symbols": ["ScalarDataLoader.downsample"]}, {"file": "meshiphi/dataloaders/vector/abstract_vector.py", "symbols": ["VectorDataLoader.downsample"]}]}
{"id": "C103", "title": "A region's value is exactly the aggregate asked for", "statement": "get_value returns, for the known values of exactly the points in the region, their least, greatest, mean, median (the middle one in order, or the mean of the two in the middle) or the root of the mean squared deviation from their mean, and NaN where nothing is known; it makes no difference whether the source is a DataFrame or a Dataset.", "quantifier": "all data, regions, aggregate types and square roots", "why_tests_cant": "The project's tests compare a few values of fixed data; order, parity, missing values and the two kinds of sources vary without bound.", "anchors": [{"file": "meshiphi/dataloaders/scalar/abstract_scalar.py", "symbols": ["ScalarDataLoader.get_value", "get_value_from_df", "get_value_from_xr", "ScalarDataLoader.trim_datapoints"]}]}
