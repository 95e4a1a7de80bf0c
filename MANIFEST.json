{
 "claims": [
  {
   "property": "C01",
   "status": "proved",
   "theorems": [
    "C01_case_is_contact"
   ],
   "note": ""
  },
  {
   "property": "C02",
   "status": "proved",
   "theorems": [
    "C02_case_antisymmetric",
    "C02_global_case_antisymmetric",
    "C02_two_columns_refuted"
   ],
   "note": "the last theorem shows why at least three columns are required"
  },
  {
   "property": "C03",
   "status": "proved",
   "theorems": [
    "C03_global_case_is_contact"
   ],
   "note": ""
  },
  {
   "property": "C04",
   "status": "proved",
   "theorems": [
    "C04_initial_cells",
    "C04_divisible_accepted"
   ],
   "note": ""
  },
  {
   "property": "C05",
   "status": "proved",
   "theorems": [
    "C05_initial_graph_exact"
   ],
   "note": ""
  },
  {
   "property": "C06",
   "status": "proved",
   "theorems": [
    "C06_initial_global_graph_exact"
   ],
   "note": ""
  },
  {
   "property": "C07",
   "status": "proved",
   "theorems": [
    "C07_split_graph_exact"
   ],
   "note": ""
  },
  {
   "property": "C08",
   "status": "proved",
   "theorems": [
    "C08_split_global_graph_exact"
   ],
   "note": ""
  },
  {
   "property": "C09",
   "status": "proved",
   "theorems": [
    "C09_split_never_raises",
    "C09_no_dangling",
    "C09_ids_never_reused"
   ],
   "note": ""
  },
  {
   "property": "C10",
   "status": "proved",
   "theorems": [
    "C10_split_quarters",
    "C10_live_cells_tile"
   ],
   "note": ""
  },
  {
   "property": "C11",
   "status": "proved",
   "theorems": [
    "C11_neighbours_symmetric"
   ],
   "note": ""
  },
  {
   "property": "C12",
   "status": "proved",
   "theorems": [
    "C12_split_to_depth_terminates",
    "C12_built_depth",
    "C12_second_call_refuted"
   ],
   "note": "holds whenever cell 0 is live, in particular on every freshly built mesh; a second call after cell 0 was split raises AttributeError (finding)"
  },
  {
   "property": "C13",
   "status": "proved",
   "theorems": [
    "C13_fixed_point"
   ],
   "note": ""
  },
  {
   "property": "C14",
   "status": "proved",
   "theorems": [
    "C14_only_heterogeneous_split",
    "C14_idle"
   ],
   "note": ""
  },
  {
   "property": "C15",
   "status": "proved",
   "theorems": [
    "C15_should_split_rule",
    "C15_breadth_first",
    "C15_order_independent"
   ],
   "note": ""
  },
  {
   "property": "C16",
   "status": "proved",
   "theorems": [
    "C16_trim_half_open",
    "C16_xarray_axes",
    "C16_points_partitioned",
    "C16_split_partitions",
    "C16_loaders_trim_exactly"
   ],
   "note": ""
  },
  {
   "property": "C17",
   "status": "partial",
   "theorems": [
    "C17_xarray_crossing",
    "C17_dataframe_complement",
    "C17_dataframe_refuted"
   ],
   "note": "true for xarray datasets; false for DataFrames, where exactly the complementary longitudes are kept (finding)"
  },
  {
   "property": "C18",
   "status": "proved",
   "theorems": [
    "C18_homogeneity",
    "C18_fraction_range",
    "C18_vector"
   ],
   "note": ""
  },
  {
   "property": "C19",
   "status": "partial",
   "theorems": [
    "C19_too_few_is_clr",
    "C19_never_min",
    "C19_too_few_refuted"
   ],
   "note": "false: the code answers CLR and never MIN, and such a cell can be split because of another source (finding)"
  },
  {
   "property": "C20",
   "status": "partial",
   "theorems": [
    "C20_aggregates_bounded",
    "C20_order_independent",
    "C20_count",
    "C20_no_data",
    "C20_dataset_count_refuted",
    "C20_vector_order_refuted"
   ],
   "note": "true for scalar sources except that COUNT of an xarray dataset counts missing values; MIN and MAX of vector sources depend on row order when magnitudes tie (findings)"
  },
  {
   "property": "C21",
   "status": "proved",
   "theorems": [
    "C21_missing_values_filled",
    "C21_filled_value_meaning",
    "C21_nan_text"
   ],
   "note": "with the fill type Nan, which is neither, the cell holds the text Nan (finding)"
  },
  {
   "property": "C22",
   "status": "partial",
   "theorems": [
    "C22_vector_components_filled",
    "C22_numeric_fill_refuted"
   ],
   "note": "true for value_fill_types parent; false for a numeric fill value, which is written under the joined name (finding)"
  },
  {
   "property": "C23",
   "status": "partial",
   "theorems": [
    "C23_first_known_source_wins",
    "C23_vector_refuted",
    "C23_nan_refuted"
   ],
   "note": "true for scalar sources that fill with a number or from the parent; false for vector sources, where the last source overwrites, and after a source filling with Nan, where a cell without data raises TypeError (findings)"
  },
  {
   "property": "C24",
   "status": "proved",
   "theorems": [
    "C24_built_mesh",
    "C24_built_mesh_agrees"
   ],
   "note": ""
  },
  {
   "property": "C25",
   "status": "partial",
   "theorems": [
    "C25_round_trip",
    "C25_same_neighbours",
    "C25_built_meshes_load",
    "C25_times_refuted",
    "C25_reserved_refuted",
    "C25_edge_refuted"
   ],
   "note": "true except that a cell loses its time range, data under a reserved name is lost, and an edge at 180 comes back as -180 (findings)"
  },
  {
   "property": "C26",
   "status": "proved",
   "theorems": [
    "C26_split_keeps_graph_exact",
    "C26_refined_loaded_mesh",
    "C26_histories"
   ],
   "note": ""
  },
  {
   "property": "C27",
   "status": "partial",
   "theorems": [
    "C27_loaded_global_exact",
    "C27_split_refuted",
    "C27_inland_partial",
    "C27_exactly_inland",
    "C27_sound"
   ],
   "note": "the loaded global graph is exact and stays so under any number of splits of cells that do not reach the antimeridian; splitting a cell that does reach it always loses its wrap-around neighbours (finding), so a split keeps the graph exact if and only if the cell is inland; whatever cells are split, no split raises, the cells keep tiling the region, and the graph lists only contacts and misses none but contacts across the antimeridian"
  },
  {
   "property": "C28",
   "status": "partial",
   "theorems": [
    "C28_split_points",
    "C28_both_sides",
    "C28_no_excess",
    "C28_midline_raises",
    "C28_refuted",
    "C28_edge_skipped"
   ],
   "note": "true for points on none of the lines drawn by repeated halving; a point on a midline of its cell raises, a point on an edge is skipped (findings)"
  },
  {
   "property": "C29",
   "status": "partial",
   "theorems": [
    "C29_query_unambiguous",
    "C29_query_on_globe",
    "C29_antimeridian_refuted"
   ],
   "note": "true for all points except those at longitude 180 or -180 inside a cell crossing the antimeridian (finding)"
  },
  {
   "property": "C30",
   "status": "proved",
   "theorems": [
    "C30_merge_cells"
   ],
   "note": ""
  },
  {
   "property": "C31",
   "status": "proved",
   "theorems": [
    "C31_accepted_exactly_aligned",
    "C30_merge_cells",
    "C31_merge_tiles"
   ],
   "note": ""
  },
  {
   "property": "C32",
   "status": "proved",
   "theorems": [
    "C32_merge_graph_exact",
    "C32_second_merge_refuted"
   ],
   "note": "the last theorem shows why the first mesh must still consist of cells lying in cells of its configured grid (finding)"
  },
  {
   "property": "C33",
   "status": "partial",
   "theorems": [
    "C33_other_mesh_changed",
    "C33_refuted",
    "C33_id_entry_refuted"
   ],
   "note": "false: every cell of the other mesh is renumbered in place (finding)"
  },
  {
   "property": "C34",
   "status": "partial",
   "theorems": [
    "C34_update_cellbox",
    "C34_refuted"
   ],
   "note": "false: negative indices are accepted and indices beyond the end raise IndexError, not ValueError; in range it changes only that cell (finding)"
  },
  {
   "property": "C35",
   "status": "proved",
   "theorems": [
    "C35_longitude_domain",
    "C35_longitude_distance"
   ],
   "note": ""
  },
  {
   "property": "C36",
   "status": "partial",
   "theorems": [
    "C36_measures",
    "C36_split_partial",
    "C36_split_refuted",
    "C36_width_refuted"
   ],
   "note": "true except that split raises when the middle meridian lies beyond 180, and that the constructor accepts ranges of zero and negative width (findings)"
  },
  {
   "property": "C37",
   "status": "proved",
   "theorems": [
    "C37_polygon_text",
    "C37_two_parts",
    "C37_edge_refuted"
   ],
   "note": "the last theorem shows that a western edge at 180 reads back as -180, which the statement allows"
  },
  {
   "property": "C38",
   "status": "partial",
   "theorems": [
    "C38_spatial_partial",
    "C38_refuted"
   ],
   "note": "true of the spatial part; equality ignores the time range (finding)"
  },
  {
   "property": "C39",
   "status": "partial",
   "theorems": [
    "C39_partial",
    "C39_boundary",
    "C39_boundary_only",
    "C39_closing_refuted",
    "C39_negative_refuted",
    "C39_globe_refuted"
   ],
   "note": "true for positive cell sizes, longitudes within the domain and, for ranges closing the circle, a width dividing 360; otherwise accepted configurations give overlapping columns, no cells, or an IndexError (findings)"
  },
  {
   "property": "C40",
   "status": "partial",
   "theorems": [
    "C40_today",
    "C40_dates",
    "C40_relative",
    "C40_infinite",
    "C40_idempotent",
    "C40_rejects",
    "C40_validator_partial",
    "C40_validator_refuted",
    "C40_early_years_refuted",
    "C40_accepts_refuted"
   ],
   "note": "true of the documented forms; the validator accepts strings the parser rejects, years before 1000 come back unpadded with glibc, and some texts that are no dates are accepted (findings)"
  },
  {
   "property": "C41",
   "status": "partial",
   "theorems": [
    "C41_letter_case",
    "C41_selects",
    "C41_required",
    "C41_classes",
    "C41_table_unambiguous",
    "C41_normalises",
    "C41_normalise_twice_partial",
    "C41_normalise_refuted",
    "C41_documented_refuted"
   ],
   "note": "true except that normalising twice differs when both a file and a folder are given, and two documented names are unknown (findings)"
  },
  {
   "property": "C42",
   "status": "partial",
   "theorems": [
    "C42_idempotent",
    "C42_keeps",
    "C42_keeps_partial",
    "C42_fills_partial",
    "C42_tables",
    "C42_rectangle_refuted",
    "C42_vector_shape_refuted",
    "C42_amsr_refuted",
    "C42_lut_name_refuted"
   ],
   "note": "idempotent for every class; keeping and filling fail for rectangles without height, vector shapes, and AMSR projections (findings)"
  },
  {
   "property": "C43",
   "status": "partial",
   "theorems": [
    "C43_self",
    "C43_boundaries_partial",
    "C43_refuted",
    "C43_values",
    "C43_tolerance_refuted",
    "C43_attributes",
    "C43_attribute_order_refuted",
    "C43_graph",
    "C43_graph_refuted",
    "C43_return_type_refuted"
   ],
   "note": "a mesh shows no difference with itself; cells present only in the first mesh are not reported, nor are graph nodes only one mesh has, and an integer column is not rounded (findings)"
  },
  {
   "property": "C44",
   "status": "partial",
   "theorems": [
    "C44_slice",
    "C44_covered",
    "C44_each_once_partial",
    "C44_refuted",
    "C44_antimeridian_refuted"
   ],
   "note": "true for source points off the cell edges; a point on a shared edge is used for every cell that touches it, and cells across the antimeridian get no points (findings)"
  },
  {
   "property": "C45",
   "status": "partial",
   "theorems": [
    "C45_georeference",
    "C45_positions",
    "C45_exactly_square",
    "C45_partial",
    "C45_refuted",
    "C45_edge_refuted",
    "C45_antimeridian_refuted",
    "C45_text_refuted",
    "C45_float_refuted",
    "C45_params"
   ],
   "note": "true exactly for square images with no pixel centre on a cell edge; lines and columns are swapped in the sampling, samples of meshes across the antimeridian lie outside the mesh, text values raise, and in double precision some resolutions raise ValueError (findings)"
  },
  {
   "property": "C46",
   "status": "partial",
   "theorems": [
    "C46_regions",
    "C46_density",
    "C46_thickness_partial",
    "C46_thickness_all",
    "C46_refuted"
   ],
   "note": "the density table is right for every range; the thickness table gives every day the values of all seasons of the range, so it is right exactly within a season (finding)"
  },
  {
   "property": "C47",
   "status": "partial",
   "theorems": [
    "C47_initial",
    "C47_tiling",
    "C47_partial",
    "C47_exactly",
    "C47_west",
    "C47_sound",
    "C47_refuted"
   ],
   "note": "tiling and the absence of errors hold for all split histories; the graph is exact after a split if and only if the quarters touch their neighbours without a shift by 360 degrees (finding: otherwise contacts are lost; what is listed stays right)"
  },
  {
   "property": "C48",
   "status": "partial",
   "theorems": [
    "C48_added",
    "C48_partial",
    "C48_scalar_refuted",
    "C48_vector_xarray_refuted",
    "C48_vector_extremes_refuted",
    "C48_refuted",
    "C48_parent_refuted",
    "C48_split_refuted",
    "C48_configured"
   ],
   "note": "false: the added subset is never trimmed to the cell, so scalar sources raise on aggregation and vector sources give every cell the value of the whole region (findings); the source is added to every cell, and the value is right when all points lie in the cell"
  },
  {
   "property": "C49",
   "status": "partial",
   "theorems": [
    "C49_exact_partial",
    "C49_partial",
    "C49_mesh",
    "C49_graph",
    "C49_refuted",
    "C49_rows_refuted"
   ],
   "note": "true for regions and cell sizes that are multiples of 2^-k through 43-k levels of splits: there double arithmetic is exact, and the whole mesh and its neighbour graph built and split in double precision are the exact ones; with cell sizes such as 0.2 touching cells of the grid are not recognised (findings)"
  },
  {
   "property": "C50",
   "status": "proved",
   "theorems": [
    "C50_split_is_local"
   ],
   "note": ""
  },
  {
   "property": "C51",
   "status": "partial",
   "theorems": [
    "C51_accepts",
    "C51_region_unique",
    "C51_path_refuted"
   ],
   "note": "exact for dictionaries; a path is never accepted (finding)"
  },
  {
   "property": "C52",
   "status": "proved",
   "theorems": [
    "C52_vessel",
    "C52_route"
   ],
   "note": ""
  },
  {
   "property": "C53",
   "status": "partial",
   "theorems": [
    "C53_fill_type",
    "C53_refuted"
   ],
   "note": "numeric texts are kept as texts and lists raise TypeError (findings)"
  },
  {
   "property": "C54",
   "status": "partial",
   "theorems": [
    "C54_float",
    "C54_list",
    "C54_int_refuted"
   ],
   "note": "exact for floats and lists; integers raise TypeError (finding)"
  },
  {
   "property": "C55",
   "status": "partial",
   "theorems": [
    "C55_samples",
    "C55_samples_refuted",
    "C55_square",
    "C55_aligned_partial",
    "C55_edge_refuted",
    "C55_split_refuted"
   ],
   "note": "true for meshes inside the longitude range whose first cell is not split and data off the cell edges; otherwise samples fall outside the mesh or validation raises (findings)"
  },
  {
   "property": "C56",
   "status": "partial",
   "theorems": [
    "C56_partial",
    "C56_repeats_refuted",
    "C56_multi_refuted"
   ],
   "note": "true if no two rows have the same index; the tables of C46 repeat days, so their rows are repeated or rejected (findings)"
  },
  {
   "property": "C57",
   "status": "partial",
   "theorems": [
    "C57_extremes",
    "C57_none",
    "C57_mean",
    "C57_mean_partial",
    "C57_mean_refuted",
    "C57_touching_refuted",
    "C57_median_refuted",
    "C57_times_refuted"
   ],
   "note": "MIN, MAX and COUNT are exact; MEAN ignores the areas and raises if polygons only touch the cell, MEDIAN returns a row, the time range is ignored (findings)"
  },
  {
   "property": "C58",
   "status": "partial",
   "theorems": [
    "C58_hom",
    "C58_refuted"
   ],
   "note": "every answer characterised; MIN is never returned, a cell without data is CLR and so goes on splitting (finding)"
  },
  {
   "property": "C59",
   "status": "partial",
   "theorems": [
    "C59_generated_partial",
    "C59_any_loaders",
    "C59_negative_refuted"
   ],
   "note": "proved end to end for non-negative minimum_datapoints, regions of positive height not crossing the antimeridian, and names that are not keys of the mesh file; a negative minimum passes the validator and then no mesh can be built (finding)"
  },
  {
   "property": "C60",
   "status": "partial",
   "theorems": [
    "C60_circle_partial",
    "C60_gradient",
    "C60_vector_gradient",
    "C60_checkerboard_partial",
    "C60_rectangle_doubled",
    "C60_names",
    "C60_rectangle_refuted",
    "C60_zero_centre_refuted",
    "C60_even_refuted",
    "C60_checkerboard_refuted",
    "C60_antimeridian_outside",
    "C60_antimeridian_refuted"
   ],
   "note": "circles and gradients are right for resolutions of at least 2 unless a centre coordinate is 0 or, without a centre, the number of points is even; rectangles are twice too wide and high, checkerboards ignore the multiplier, shapes over the antimeridian lie outside the longitude range (findings)"
  },
  {
   "property": "C61",
   "status": "partial",
   "theorems": [
    "C61_extremes",
    "C61_mean_partial",
    "C61_median_partial",
    "C61_steps",
    "C61_count",
    "C61_blocks",
    "C61_factors",
    "C61_mean_refuted",
    "C61_median_refuted",
    "C61_std_refuted",
    "C61_count_refuted",
    "C61_ignored_refuted"
   ],
   "note": "MIN and MAX are exact; MEAN is exact where no value is missing and, like MEDIAN, always within the values of the block; MEAN, MEDIAN and STD are exactly those of each column first and then of the results, so that with missing values MEAN weighs the columns equally, and MEDIAN and STD are medians of medians and deviations of deviations; COUNT keeps the first entry of each block, other types and DataFrames are not downsampled (findings)"
  },
  {
   "property": "C62",
   "status": "partial",
   "theorems": [
    "C62_rows_partial",
    "C62_grid_partial",
    "C62_cells_rows",
    "C62_cells_grid",
    "C62_outside_refuted",
    "C62_line_refuted",
    "C62_longitudes_refuted",
    "C62_crossing_refuted",
    "C62_descending_refuted"
   ],
   "note": "exact whenever the known data reach over the region, and cells always get their own points; data beside the region or along one latitude are kept whole, longitudes up to 360 are rejected, DataFrames across the antimeridian and datasets with decreasing latitudes lose their data (findings)"
  },
  {
   "property": "C63",
   "status": "partial",
   "theorems": [
    "C63_scalar_name",
    "C63_scalar_rename",
    "C63_grid_rename",
    "C63_vector_partial",
    "C63_position_refuted",
    "C63_equal_names_refuted",
    "C63_no_columns_refuted",
    "C63_comma_refuted",
    "C63_name_list_refuted",
    "C63_lut_refuted"
   ],
   "note": "true of scalar sources and of vector sources whose column names are distinct and free of commas; names that are already columns are accepted, set_data_col_name_list hands on a text, look-up tables are never renamed (findings)"
  },
  {
   "property": "C64",
   "status": "partial",
   "theorems": [
    "C64_curl",
    "C64_affine",
    "C64_thin",
    "C64_collapsed",
    "C64_homogeneity",
    "C64_dmag",
    "C64_dmag_collapsed",
    "C64_utils",
    "C64_dataset",
    "C64_sign_refuted",
    "C64_times_refuted",
    "C64_empty_refuted",
    "C64_dataset_refuted",
    "C64_dmag_refuted"
   ],
   "note": "exact for DataFrames with the points of a grid at one time; several times or no points raise ValueError, the sign of the curl decides on splits, on Datasets the axes are exchanged and calc_dmag raises, and with MAX it measures from the longest vector (findings)"
  },
  {
   "property": "C65",
   "status": "partial",
   "theorems": [
    "C65_stated",
    "C65_minutes_partial",
    "C65_hours_partial",
    "C65_refuted"
   ],
   "note": "the sum of the units is within half the last unit; 60 minutes and 24.0 hours are printed just below a whole hour or day (findings)"
  },
  {
   "property": "C66",
   "status": "partial",
   "theorems": [
    "C66_month_partial",
    "C66_month_rejects",
    "C66_range",
    "C66_month_refuted",
    "C66_times_refuted"
   ],
   "note": "true for dates of the given month and year in order, and for ranges between equal times of day; dates of other years and reversed dates are accepted, and a range to a later time of day can lose its last day (findings)"
  },
  {
   "property": "C67",
   "status": "partial",
   "theorems": [
    "C67_era5",
    "C67_amsr",
    "C67_undated",
    "C67_ecmwf",
    "C67_icenet_partial",
    "C67_ecmwf_refuted",
    "C67_icenet_refuted"
   ],
   "note": "exact for ERA5, DUACS and AMSR sources, and for ECMWF files in one directory; with several directories an older ECMWF run may be taken, and a dot in an IceNet path raises ValueError (findings)"
  },
  {
   "property": "C68",
   "status": "partial",
   "theorems": [
    "C68_days_partial",
    "C68_zrange",
    "C68_last_day_refuted"
   ],
   "note": "the days of the range but its last are read, from the last forecast before the range; the last day is never read, so a range of one day gives no data (finding)"
  },
  {
   "property": "C69",
   "status": "partial",
   "theorems": [
    "C69_era5_partial",
    "C69_wind_mag_partial",
    "C69_bsose_depth_partial",
    "C69_bsose_ice_partial",
    "C69_plain",
    "C69_reversed_partial",
    "C69_csv",
    "C69_csv_none",
    "C69_sose",
    "C69_baltic_current",
    "C69_modis_clouds_partial",
    "C69_dateline_refuted",
    "C69_ascending_refuted",
    "C69_wind_refuted",
    "C69_modis_refuted"
   ],
   "note": "exact for ERA5, BSOSE, Baltic, GEBCO, DUACS, North Sea, SOSE and csv sources with latitudes in the usual order, up to moving longitude 180 to -180; data at 180 are lost from regions ending there, ERA5 files with increasing latitudes give nothing, ERA5 wind vectors of the western hemisphere are lost, and MODIS sources always raise AttributeError (findings)"
  },
  {
   "property": "C70",
   "status": "partial",
   "theorems": [
    "C70_extremes",
    "C70_none",
    "C70_mean_partial",
    "C70_std_partial",
    "C70_count_partial",
    "C70_agree",
    "C70_one_file",
    "C70_magnitude_partial",
    "C70_files_refuted",
    "C70_mean_refuted",
    "C70_agree_refuted",
    "C70_count_refuted",
    "C70_magnitude_refuted"
   ],
   "note": "exact for MIN and MAX on data from one file and for the components of MEAN; with several csv files MIN and MAX raise ValueError, the mean mixes components of different points, Datasets without a whole vector give no mean and another STD, COUNT counts unknown vectors, and magnitudes are misplaced if a Dataset lists its dimensions in another order (findings)"
  },
  {
   "property": "C71",
   "status": "partial",
   "theorems": [
    "C71_grid",
    "C71_field",
    "C71_binary",
    "C71_scalar_partial",
    "C71_range",
    "C71_vector",
    "C71_fourier_partial",
    "C71_thresholds_refuted",
    "C71_one_refuted",
    "C71_binary_range_refuted",
    "C71_fourier_refuted",
    "C71_antimeridian_refuted"
   ],
   "note": "true of uneven noise with increasing thresholds within the range of the field and of even sizes; other thresholds and fields of one point are NaN throughout, binary fields ignore their range, odd sizes have a wrong Fourier coordinate, fields over the antimeridian lie outside the region (findings)"
  },
  {
   "property": "C72",
   "status": "partial",
   "theorems": [
    "C72_rows",
    "C72_missing",
    "C72_grid",
    "C72_same",
    "C72_amsr_partial",
    "C72_amsr_none",
    "C72_visual_iced_partial",
    "C72_default_refuted",
    "C72_downsample_refuted",
    "C72_csv_refuted",
    "C72_csv_metres_refuted",
    "C72_visual_iced_refuted",
    "C72_csv_trim",
    "C72_visual_iced_files"
   ],
   "note": "exact whenever the x and y columns are given, and for AMSR end to end when its data reach over the region; with the default columns latitude and longitude are exchanged, AMSR data cannot be downsampled, csv files are trimmed before they are reprojected, and Visual_Ice data do not load without a given projection (findings); the fast method (rioxarray) is not modelled"
  },
  {
   "property": "C73",
   "status": "partial",
   "theorems": [
    "C73_csv_partial",
    "C73_shapes",
    "C73_extremes",
    "C73_edge_refuted",
    "C73_zone_refuted",
    "C73_order_refuted",
    "C73_columns_refuted",
    "C73_rejected"
   ],
   "note": "true of the table for shapes, and for csv files with the columns geometry and value in this order; a cell inside a polygon touching its edge has no value, means count polygons and not areas, and csv files with another order or with different value columns are not read (findings)"
  },
  {
   "property": "C74",
   "status": "partial",
   "theorems": [
    "C74_icenet_partial",
    "C74_icenet_only",
    "C74_icenet_last_refuted",
    "C74_ecmwf_partial",
    "C74_ecmwf_refuted",
    "C74_oras5_partial",
    "C74_oras5_refuted"
   ],
   "note": "IceNet sources hold exactly the predictions, in percent, of the last forecast before the period at the cells of the region, but never for the last day of the period, so a period of one day has no data. ECMWF sources hold exactly the heights of the last run with pandas before version 2 or if the files' hours are increasing in reverse alphabetical order; otherwise KeyError. ORAS5 currents are cut to the region if on axes; on a curvilinear grid KeyError."
  },
  {
   "property": "C75",
   "status": "partial",
   "theorems": [
    "C75_rebuild_partial",
    "C75_file_says",
    "C75_files",
    "C75_merged_refuted",
    "C75_folder_refuted"
   ],
   "note": "the file's configuration is a fixed point for every loader, and rebuilding gives the same mesh if each source names its files in one way (sources with unset random seeds do not give the same data again). The file of a merged mesh rebuilds the mesh before merging; a source with both 'file' and 'folder' reads the folder the second time (findings). That the chosen files are chosen again is proved for ERA5/DUACS, AMSR and ECMWF; the JSON text of the file is not modelled."
  },
  {
   "property": "C76",
   "status": "partial",
   "theorems": [
    "C76_directory",
    "C76_order_partial",
    "C76_all_or_nothing",
    "C76_order_refuted",
    "C76_overlap_refuted",
    "C76_outside_refuted"
   ],
   "note": "for files aligned with and inside the first mesh, with cells inside its cells, in full, from files to file; the order does not matter if no point is covered twice. With overlapping files the data, and with larger cells even whether cells overlap, depends on the listing order of the directory; meshes outside the bounds are accepted (findings)"
  },
  {
   "property": "C77",
   "status": "partial",
   "theorems": [
    "C77_features_partial",
    "C77_flags",
    "C77_text",
    "C77_save",
    "C77_unknown_format",
    "C77_png",
    "C77_emptied",
    "C77_default_output",
    "C77_flags_refuted",
    "C77_text_refuted",
    "C77_save_refuted"
   ],
   "note": "in full for columns without text in which unset flags are not mixed with other or missing values. An unset flag shows as 0 rather than null as soon as one cell lacks the flag; one fill value 'Nan' fails the export with TypeError, after the file was emptied; an unknown format is only logged; PNG without a parameter file fails with UnboundLocalError (findings)"
  },
  {
   "property": "C78",
   "status": "partial",
   "theorems": [
    "C78_table",
    "C78_partial",
    "C78_repeated",
    "C78_fractions",
    "C78_empty",
    "C78_refuted"
   ],
   "note": "thresholds never decrease, and for a range of at least 8 the first three are distinct and inside the range. The last two always coincide; for values between -1 and 1 (any fraction) all four are 0; without a value the call fails after the image was written (findings)"
  },
  {
   "property": "C79",
   "status": "partial",
   "theorems": [
    "C79_files_partial",
    "C79_columns",
    "C79_no_files",
    "C79_gebco_variables",
    "C79_longitudes_refuted",
    "C79_undated_refuted"
   ],
   "note": "in full for sources without reprojection and downsampling whose name is no key of a cell, in regions not crossing the antimeridian. csv files with differently named value columns are refused even when a name is configured; longitudes 0..360 in csv files are not brought to the usual range, so such rows are silently lost, as are the rows of files without times beside files with times (findings)"
  },
  {
   "property": "C80",
   "status": "partial",
   "theorems": [
    "C80_one_branch",
    "C80_two_branches",
    "C80_tested_branch_refuted",
    "C80_statistics",
    "C80_function_refuted",
    "C80_collection_refuted",
    "C80_no_summary",
    "C80_expected_failure_refuted",
    "C80_tables",
    "C80_validator_refuted"
   ],
   "note": "true with one branch, for tests that are methods or have parameters. With two branches only what the reference branch changed since the merge base is tested, nothing of the tested branch; a test function without parameters raises IndexError, an expected failure ValueError; test files that cannot be imported go unreported; the validator's tests are run for no change (findings)"
  },
  {
   "property": "C81",
   "status": "proved",
   "theorems": [
    "C81_great_circle",
    "C81_length",
    "C81_band_refuted"
   ],
   "note": "true as stated, over the real numbers; but a band around the whole globe has the size of its height alone (finding)"
  },
  {
   "property": "C82",
   "status": "partial",
   "theorems": [
    "C82_file",
    "C82_frame",
    "C82_others",
    "C82_range_refuted",
    "C82_flags_refuted",
    "C82_index_refuted"
   ],
   "note": "what is accepted is characterised exactly; false as stated: coordinates are not checked against any range, a column of True and False passes for coordinates, and tables whose index has the name of a column, or with columns index and level_0, raise ValueError (findings)"
  },
  {
   "property": "C83",
   "status": "partial",
   "theorems": [
    "C83_map",
    "C83_parts",
    "C83_flags",
    "C83_image_partial",
    "C83_constant_refuted",
    "C83_infinite_refuted",
    "C83_missing",
    "C83_not_numbers",
    "C83_antimeridian_refuted"
   ],
   "note": "true for regions not crossing the antimeridian and columns of numbers that are not all equal; a constant column is painted transparent, with one infinite number all finite ones look alike, names some cell lacks raise KeyError, and meshes across the antimeridian cannot be plotted: ValueError (findings)"
  },
  {
   "property": "C84",
   "status": "partial",
   "theorems": [
    "C84_each_once_partial",
    "C84_refuted"
   ],
   "note": "proved for source points that are on no edge of a cell and cells that have both values; a point on an edge is counted for each cell it touches (finding); the square root is a parameter"
  },
  {
   "property": "C85",
   "status": "partial",
   "theorems": [
    "C85_saved_partial",
    "C85_flags_refuted",
    "C85_refuted"
   ],
   "note": "which files are kept, removed and untouched is characterised exactly by the four comparisons of C43; false as stated: the results of the tests are ignored, and a new mesh that lost a cell is removed as if identical (findings)"
  },
  {
   "property": "C86",
   "status": "partial",
   "theorems": [
    "C86_entry",
    "C86_refuted"
   ],
   "note": "exact for all cells that can be drawn and data without reserved names; false as stated: the centre of a cell halfway across the antimeridian is not in its own polygon, a cell from a longitude to itself has a half width of 180, and data called cx replace the centre (findings)"
  },
  {
   "property": "C87",
   "status": "partial",
   "theorems": [
    "C87_generated_partial",
    "C87_settled"
   ],
   "note": "proved for vectors filled from the parent, with conditions on dmag (DataFrames) or none (Datasets), and names of their own; other fill types and repeated names of vectors go wrong (C22, C23), conditions on the curl are treated in Curl.v"
  },
  {
   "property": "C88",
   "status": "partial",
   "theorems": [
    "C88_files_partial",
    "C88_two",
    "C88_wind_refuted"
   ],
   "note": "in full for sources of two components without reprojection and downsampling, in regions not crossing the antimeridian; ORAS5 currents are treated singly (C69, C74). ERA5 winds at longitudes 0..360 are not brought to the usual range, unlike wave directions, so those west of Greenwich are silently lost (finding)"
  },
  {
   "property": "C89",
   "status": "partial",
   "theorems": [
    "C89_across_partial",
    "C89_any_loaders",
    "C89_graph_refuted",
    "C89_frames_refuted",
    "C89_standard_refuted"
   ],
   "note": "in full except for the graph after splits, of which it is shown that it lists nothing wrong (it can miss contacts: C89_graph_refuted), for scalar sources kept as Datasets whose longitudes lie in (-180, 180]. Sources kept as DataFrames give the cells that cross 180 the points everywhere else (C89_frames_refuted), and a point at -180 is not found by the cell that ends at 180 (C89_standard_refuted)"
  },
  {
   "property": "C90",
   "status": "partial",
   "theorems": [
    "C90_generated_partial",
    "C90_settled",
    "C90_csv",
    "C90_shapes",
    "C90_dated",
    "C90_median_refuted",
    "C90_name_refuted",
    "C90_unnamed_refuted"
   ],
   "note": "for tables aggregated by COUNT, MIN, MAX, MEAN and STD under the names of their columns, and vectors as in C87; the median of a table raises TypeError (C90_median_refuted) and a configured name of protected areas, thickness or density raises KeyError (C90_name_refuted); polygons without a configured name raise TypeError (C90_unnamed_refuted). MEAN and STD give all polygons one weight (C57, C73)"
  },
  {
   "property": "C91",
   "status": "partial",
   "theorems": [
    "C91_whole_partial"
   ],
   "note": "for scalars and vectors from csv and netCDF files as in C88, shapes as in C93 and tables as in C90, with names of their own for vectors; the other readers' files are C21 and later claims. MEAN and STD of a table give all polygons one weight (C57, C73)"
  },
  {
   "property": "C92",
   "status": "partial",
   "theorems": [
    "C92_listed",
    "C92_lookup_refuted",
    "C92_built_refuted",
    "C92_lookup_partial",
    "C92_rows_partial"
   ],
   "note": "the list is right for every mesh; but CellBox has neither contains_point nor long, lat, width, height or add_data_points, so both look-ups raise AttributeError in every mesh with a cell, hence in every built one (finding). What they would do if CellBox had these attributes is proved as C92_lookup_partial and C92_rows_partial"
  },
  {
   "property": "C93",
   "status": "partial",
   "theorems": [
    "C93_described",
    "C93_shapes_partial",
    "C93_defaults_refuted"
   ],
   "note": "for all shapes with a resolution of at least 2 by 2, centres other than 0 or middles of an odd number of points, rectangles taken at twice their size and chequered boards with the multiplier 1 (C60); a rectangle without height and vector shapes without all their parameters raise AttributeError (finding). Shapes also stand beside the other sources in C91_whole_partial"
  },
  {
   "property": "C94",
   "status": "partial",
   "theorems": [
    "C94_only_outputs",
    "C94_all_or_nothing",
    "C94_create",
    "C94_rebuild_partial",
    "C94_export_json_partial",
    "C94_merge",
    "C94_stdin",
    "C94_defaults",
    "C94_merge_stdin_refuted",
    "C94_export_refuted"
   ],
   "note": "rebuilding for sources that name their files in one way (C75), exporting for drawable cells and data without reserved names (C25), merging for files as in C76; merge_mesh cannot read its mesh from standard input, and a GeoJSON export that fails leaves its output empty, even if that is the mesh itself (findings). Interrupted writes are not modelled: json.dump of a complete mesh succeeds"
  },
  {
   "property": "C95",
   "status": "partial",
   "theorems": [
    "C95_described",
    "C95_whole_partial",
    "C95_defaults_refuted"
   ],
   "note": "under the assumptions of C91 for the other sources; sizes of at least 2, thresholds within reach of the noise, no downsampling or reprojection, no splitting conditions for vectors; the noise itself (numpy's generator and Fourier transform) is a parameter; scalar_grf and binary_grf with default parameters cannot be built because the factory requires \"binary\" (finding)"
  },
  {
   "property": "C96",
   "status": "partial",
   "theorems": [
    "C96_whole_partial",
    "C96_columns_refuted"
   ],
   "note": "under the assumptions of C95 for the other sources; AMSR files on one grid and projected within 180 degrees, slow reprojection, no downsampling, IceNet files named by date without another dot, its leads reaching beyond the period; the projection (pyproj) and the contents of files are parameters; Visual_Ice with default columns cannot be built (finding)"
  },
  {
   "property": "C97",
   "status": "partial",
   "theorems": [
    "C97_whole_partial",
    "C97_modis_refuted",
    "C97_mean_refuted"
   ],
   "note": "under the assumptions of C96 for the other sources; without reprojection and downsampling; the angle of a vector (arctan2, in degrees) is a parameter; the arithmetic mean of directions on both sides of 0 is the opposite direction, and a configuration that names MODIS is never built (findings)"
  },
  {
   "property": "C98",
   "status": "partial",
   "theorems": [
    "C98_whole_partial",
    "C98_edge_refuted"
   ],
   "note": "for MIN, MAX, MEAN and MEDIAN, whose block values are those of C61 (means exact where nothing is missing), and for COUNT, for which the first of each block is kept; under the assumptions of C97 for the other sources; a block across the edge of a cell carries values into the next cell (finding)"
  },
  {
   "property": "C99",
   "status": "partial",
   "theorems": [
    "C99_whole_partial",
    "C99_order_refuted",
    "C99_oras5_refuted"
   ],
   "note": "for ECMWF files in one directory on one grid, ORAS5 currents on axes of latitude and longitude; with pandas 2 or later only if the hours increase from the last name to the first, otherwise KeyError; ORAS5's own grid is never built (findings); under the assumptions of C98 for the other sources"
  },
  {
   "property": "C100",
   "status": "partial",
   "theorems": [
    "C100_whole_partial",
    "C100_invented_refuted",
    "C100_count_refuted"
   ],
   "note": "for MIN, MAX, MEAN and COUNT without conditions on the vectors and without reprojection; blocks take the largest components one by one, so that MAX can give a vector longer than every vector of the file (finding); COUNT counts only the first vector of each block (finding); under the assumptions of C99 for the other sources"
  },
  {
   "property": "C101",
   "status": "partial",
   "theorems": [
    "C101_whole_partial",
    "C101_outside_refuted"
   ],
   "note": "for MIN, MAX, MEAN, MEDIAN and COUNT, as in C98; with pandas 2 or later the hours must be in the order of the names as in C99; the forecasts are not trimmed before blocks are formed, so that a block across the edge of the region carries heights from outside it (finding)"
  },
  {
   "property": "C102",
   "status": "partial",
   "theorems": [
    "C102_whole_partial",
    "C102_ice_refuted"
   ],
   "note": "wind directions with the aggregates of C98 and currents with those of C100, under the assumptions of C101; directions are aggregated within a block as numbers, as in the finding of C97; AMSR and Visual_Ice are read on a grid without a dimension lat, so that every configuration that downsamples them by other factors than 1 and 1 with MIN, MAX, MEAN, MEDIAN, STD or COUNT ends in an error (finding)"
  },
  {
   "property": "C103",
   "status": "partial",
   "theorems": [
    "C103_exact",
    "C103_region",
    "C103_std_refuted"
   ],
   "note": "exact for MIN, MAX, MEAN, MEDIAN, STD and, for a Dataset, RMSE (COUNT is in C20); a DataFrame divides by the number of values less one and gives NaN for a single value, a Dataset divides by the number and gives 0 (finding)"
  }
 ]
}