c('C01','proved','C01_case_is_contact','')
c('C02','proved','C02_case_antisymmetric C02_global_case_antisymmetric C02_two_columns_refuted','the last theorem shows why at least three columns are required')
c('C03','proved','C03_global_case_is_contact','')
c('C04','proved','C04_initial_cells C04_divisible_accepted','')
c('C05','proved','C05_initial_graph_exact','')
c('C06','proved','C06_initial_global_graph_exact','')
c('C07','proved','C07_split_graph_exact','')
c('C08','proved','C08_split_global_graph_exact','')
c('C09','proved','C09_split_never_raises C09_no_dangling C09_ids_never_reused','')
c('C10','proved','C10_split_quarters C10_live_cells_tile','')
c('C11','proved','C11_neighbours_symmetric','')
c('C50','proved','C50_split_is_local','')
c('C12','proved','C12_split_to_depth_terminates C12_built_depth C12_second_call_refuted','holds whenever cell 0 is live, in particular on every freshly built mesh; a second call after cell 0 was split raises AttributeError (finding)')
c('C13','proved','C13_fixed_point','')
c('C14','proved','C14_only_heterogeneous_split C14_idle','')
c('C15','proved','C15_should_split_rule C15_breadth_first C15_order_independent','')
c('C16','proved','C16_trim_half_open C16_xarray_axes C16_points_partitioned C16_split_partitions C16_loaders_trim_exactly','')
c('C17','partial','C17_xarray_crossing C17_dataframe_complement C17_dataframe_refuted','true for xarray datasets; false for DataFrames, where exactly the complementary longitudes are kept (finding)')
c('C18','proved','C18_homogeneity C18_fraction_range C18_vector','')
c('C19','partial','C19_too_few_is_clr C19_never_min C19_too_few_refuted','false: the code answers CLR and never MIN, and such a cell can be split because of another source (finding)')
c('C20','partial','C20_aggregates_bounded C20_order_independent C20_count C20_no_data C20_dataset_count_refuted C20_vector_order_refuted','true for scalar sources except that COUNT of an xarray dataset counts missing values; MIN and MAX of vector sources depend on row order when magnitudes tie (findings)')
c('C21','proved','C21_missing_values_filled C21_filled_value_meaning C21_nan_text','with the fill type Nan, which is neither, the cell holds the text Nan (finding)')
c('C22','partial','C22_vector_components_filled C22_numeric_fill_refuted','true for value_fill_types parent; false for a numeric fill value, which is written under the joined name (finding)')
c('C23','partial','C23_first_known_source_wins C23_vector_refuted C23_nan_refuted','true for scalar sources that fill with a number or from the parent; false for vector sources, where the last source overwrites, and after a source filling with Nan, where a cell without data raises TypeError (findings)')
c('C24','proved','C24_built_mesh C24_built_mesh_agrees','')
c('C25','partial','C25_round_trip C25_same_neighbours C25_built_meshes_load C25_times_refuted C25_reserved_refuted C25_edge_refuted','true except that a cell loses its time range, data under a reserved name is lost, and an edge at 180 comes back as -180 (findings)')
c('C26','proved','C26_split_keeps_graph_exact C26_refined_loaded_mesh C26_histories','')
c('C27','partial','C27_loaded_global_exact C27_split_refuted C27_inland_partial C27_exactly_inland C27_sound','the loaded global graph is exact and stays so under any number of splits of cells that do not reach the antimeridian; splitting a cell that does reach it always loses its wrap-around neighbours (finding), so a split keeps the graph exact if and only if the cell is inland; whatever cells are split, no split raises, the cells keep tiling the region, and the graph lists only contacts and misses none but contacts across the antimeridian')
c('C28','partial','C28_split_points C28_both_sides C28_no_excess C28_midline_raises C28_refuted C28_edge_skipped','true for points on none of the lines drawn by repeated halving; a point on a midline of its cell raises, a point on an edge is skipped (findings)')
c('C29','partial','C29_query_unambiguous C29_query_on_globe C29_antimeridian_refuted','true for all points except those at longitude 180 or -180 inside a cell crossing the antimeridian (finding)')
c('C30','proved','C30_merge_cells','')
c('C31','proved','C31_accepted_exactly_aligned C30_merge_cells C31_merge_tiles','')
c('C32','proved','C32_merge_graph_exact C32_second_merge_refuted','the last theorem shows why the first mesh must still consist of cells lying in cells of its configured grid (finding)')
c('C33','partial','C33_other_mesh_changed C33_refuted C33_id_entry_refuted','false: every cell of the other mesh is renumbered in place (finding)')
c('C34','partial','C34_update_cellbox C34_refuted','false: negative indices are accepted and indices beyond the end raise IndexError, not ValueError; in range it changes only that cell (finding)')
c('C35','proved','C35_longitude_domain C35_longitude_distance','')
c('C36','partial','C36_measures C36_split_partial C36_split_refuted C36_width_refuted','true except that split raises when the middle meridian lies beyond 180, and that the constructor accepts ranges of zero and negative width (findings)')
c('C37','proved','C37_polygon_text C37_two_parts C37_edge_refuted','the last theorem shows that a western edge at 180 reads back as -180, which the statement allows')
c('C38','partial','C38_spatial_partial C38_refuted','true of the spatial part; equality ignores the time range (finding)')
c('C40','partial','C40_today C40_dates C40_relative C40_infinite C40_idempotent C40_rejects C40_validator_partial C40_validator_refuted C40_early_years_refuted C40_accepts_refuted','true of the documented forms; the validator accepts strings the parser rejects, years before 1000 come back unpadded with glibc, and some texts that are no dates are accepted (findings)')
c('C47','partial','C47_initial C47_tiling C47_partial C47_exactly C47_west C47_sound C47_refuted','tiling and the absence of errors hold for all split histories; the graph is exact after a split if and only if the quarters touch their neighbours without a shift by 360 degrees (finding: otherwise contacts are lost; what is listed stays right)')
c('C39','partial','C39_partial C39_boundary C39_boundary_only C39_closing_refuted C39_negative_refuted C39_globe_refuted','true for positive cell sizes, longitudes within the domain and, for ranges closing the circle, a width dividing 360; otherwise accepted configurations give overlapping columns, no cells, or an IndexError (findings)')
c('C51','partial','C51_accepts C51_region_unique C51_path_refuted','exact for dictionaries; a path is never accepted (finding)')
c('C52','proved','C52_vessel C52_route','')
c('C48','partial','C48_added C48_partial C48_scalar_refuted C48_vector_xarray_refuted C48_vector_extremes_refuted C48_refuted C48_parent_refuted C48_split_refuted C48_configured','false: the added subset is never trimmed to the cell, so scalar sources raise on aggregation and vector sources give every cell the value of the whole region (findings); the source is added to every cell, and the value is right when all points lie in the cell')
c('C41','partial','C41_letter_case C41_selects C41_required C41_classes C41_table_unambiguous C41_normalises C41_normalise_twice_partial C41_normalise_refuted C41_documented_refuted','true except that normalising twice differs when both a file and a folder are given, and two documented names are unknown (findings)')
c('C42','partial','C42_idempotent C42_keeps C42_keeps_partial C42_fills_partial C42_tables C42_rectangle_refuted C42_vector_shape_refuted C42_amsr_refuted C42_lut_name_refuted','idempotent for every class; keeping and filling fail for rectangles without height, vector shapes, and AMSR projections (findings)')
c('C53','partial','C53_fill_type C53_refuted','numeric texts are kept as texts and lists raise TypeError (findings)')
c('C43','partial','C43_self C43_boundaries_partial C43_refuted C43_values C43_tolerance_refuted C43_attributes C43_attribute_order_refuted C43_graph C43_graph_refuted C43_return_type_refuted','a mesh shows no difference with itself; cells present only in the first mesh are not reported, nor are graph nodes only one mesh has, and an integer column is not rounded (findings)')
c('C44','partial','C44_slice C44_covered C44_each_once_partial C44_refuted C44_antimeridian_refuted','true for source points off the cell edges; a point on a shared edge is used for every cell that touches it, and cells across the antimeridian get no points (findings)')
c('C54','partial','C54_float C54_list C54_int_refuted','exact for floats and lists; integers raise TypeError (finding)')
c('C55','partial','C55_samples C55_samples_refuted C55_square C55_aligned_partial C55_edge_refuted C55_split_refuted','true for meshes inside the longitude range whose first cell is not split and data off the cell edges; otherwise samples fall outside the mesh or validation raises (findings)')
c('C45','partial','C45_georeference C45_positions C45_exactly_square C45_partial C45_refuted C45_edge_refuted C45_antimeridian_refuted C45_text_refuted C45_float_refuted C45_params','true exactly for square images with no pixel centre on a cell edge; lines and columns are swapped in the sampling, samples of meshes across the antimeridian lie outside the mesh, text values raise, and in double precision some resolutions raise ValueError (findings)')
c('C46','partial','C46_regions C46_density C46_thickness_partial C46_thickness_all C46_refuted','the density table is right for every range; the thickness table gives every day the values of all seasons of the range, so it is right exactly within a season (finding)')
c('C56','partial','C56_partial C56_repeats_refuted C56_multi_refuted','true if no two rows have the same index; the tables of C46 repeat days, so their rows are repeated or rejected (findings)')
c('C57','partial','C57_extremes C57_none C57_mean C57_mean_partial C57_mean_refuted C57_touching_refuted C57_median_refuted C57_times_refuted','MIN, MAX and COUNT are exact; MEAN ignores the areas and raises if polygons only touch the cell, MEDIAN returns a row, the time range is ignored (findings)')
c('C58','partial','C58_hom C58_refuted','every answer characterised; MIN is never returned, a cell without data is CLR and so goes on splitting (finding)')
c('C49','partial','C49_exact_partial C49_partial C49_mesh C49_graph C49_refuted C49_rows_refuted','true for regions and cell sizes that are multiples of 2^-k through 43-k levels of splits: there double arithmetic is exact, and the whole mesh and its neighbour graph built and split in double precision are the exact ones; with cell sizes such as 0.2 touching cells of the grid are not recognised (findings)')
c('C59','partial','C59_generated_partial C59_any_loaders C59_negative_refuted','proved end to end for non-negative minimum_datapoints, regions of positive height not crossing the antimeridian, and names that are not keys of the mesh file; a negative minimum passes the validator and then no mesh can be built (finding)')
c('C60','partial','C60_circle_partial C60_gradient C60_vector_gradient C60_checkerboard_partial C60_rectangle_doubled C60_names C60_rectangle_refuted C60_zero_centre_refuted C60_even_refuted C60_checkerboard_refuted C60_antimeridian_outside C60_antimeridian_refuted','circles and gradients are right for resolutions of at least 2 unless a centre coordinate is 0 or, without a centre, the number of points is even; rectangles are twice too wide and high, checkerboards ignore the multiplier, shapes over the antimeridian lie outside the longitude range (findings)')
c('C62','partial','C62_rows_partial C62_grid_partial C62_cells_rows C62_cells_grid C62_outside_refuted C62_line_refuted C62_longitudes_refuted C62_crossing_refuted C62_descending_refuted','exact whenever the known data reach over the region, and cells always get their own points; data beside the region or along one latitude are kept whole, longitudes up to 360 are rejected, DataFrames across the antimeridian and datasets with decreasing latitudes lose their data (findings)')
c('C61','partial','C61_extremes C61_mean_partial C61_median_partial C61_steps C61_count C61_blocks C61_factors C61_mean_refuted C61_median_refuted C61_std_refuted C61_count_refuted C61_ignored_refuted','MIN and MAX are exact; MEAN is exact where no value is missing and, like MEDIAN, always within the values of the block; MEAN, MEDIAN and STD are exactly those of each column first and then of the results, so that with missing values MEAN weighs the columns equally, and MEDIAN and STD are medians of medians and deviations of deviations; COUNT keeps the first entry of each block, other types and DataFrames are not downsampled (findings)')
c('C63','partial','C63_scalar_name C63_scalar_rename C63_grid_rename C63_vector_partial C63_position_refuted C63_equal_names_refuted C63_no_columns_refuted C63_comma_refuted C63_name_list_refuted C63_lut_refuted','true of scalar sources and of vector sources whose column names are distinct and free of commas; names that are already columns are accepted, set_data_col_name_list hands on a text, look-up tables are never renamed (findings)')
c('C65','partial','C65_stated C65_minutes_partial C65_hours_partial C65_refuted','the sum of the units is within half the last unit; 60 minutes and 24.0 hours are printed just below a whole hour or day (findings)')
c('C66','partial','C66_month_partial C66_month_rejects C66_range C66_month_refuted C66_times_refuted','true for dates of the given month and year in order, and for ranges between equal times of day; dates of other years and reversed dates are accepted, and a range to a later time of day can lose its last day (findings)')
c('C64','partial','C64_curl C64_affine C64_thin C64_collapsed C64_homogeneity C64_dmag C64_dmag_collapsed C64_utils C64_dataset C64_sign_refuted C64_times_refuted C64_empty_refuted C64_dataset_refuted C64_dmag_refuted','exact for DataFrames with the points of a grid at one time; several times or no points raise ValueError, the sign of the curl decides on splits, on Datasets the axes are exchanged and calc_dmag raises, and with MAX it measures from the longest vector (findings)')
c('C67','partial','C67_era5 C67_amsr C67_undated C67_ecmwf C67_icenet_partial C67_ecmwf_refuted C67_icenet_refuted','exact for ERA5, DUACS and AMSR sources, and for ECMWF files in one directory; with several directories an older ECMWF run may be taken, and a dot in an IceNet path raises ValueError (findings)')
c('C68','partial','C68_days_partial C68_zrange C68_last_day_refuted','the days of the range but its last are read, from the last forecast before the range; the last day is never read, so a range of one day gives no data (finding)')
c('C69','partial','C69_era5_partial C69_wind_mag_partial C69_bsose_depth_partial C69_bsose_ice_partial C69_plain C69_reversed_partial C69_csv C69_csv_none C69_sose C69_baltic_current C69_modis_clouds_partial C69_dateline_refuted C69_ascending_refuted C69_wind_refuted C69_modis_refuted','exact for ERA5, BSOSE, Baltic, GEBCO, DUACS, North Sea, SOSE and csv sources with latitudes in the usual order, up to moving longitude 180 to -180; data at 180 are lost from regions ending there, ERA5 files with increasing latitudes give nothing, ERA5 wind vectors of the western hemisphere are lost, and MODIS sources always raise AttributeError (findings)')
c('C70','partial','C70_extremes C70_none C70_mean_partial C70_std_partial C70_count_partial C70_agree C70_one_file C70_magnitude_partial C70_files_refuted C70_mean_refuted C70_agree_refuted C70_count_refuted C70_magnitude_refuted','exact for MIN and MAX on data from one file and for the components of MEAN; with several csv files MIN and MAX raise ValueError, the mean mixes components of different points, Datasets without a whole vector give no mean and another STD, COUNT counts unknown vectors, and magnitudes are misplaced if a Dataset lists its dimensions in another order (findings)')
c('C71','partial','C71_grid C71_field C71_binary C71_scalar_partial C71_range C71_vector C71_fourier_partial C71_thresholds_refuted C71_one_refuted C71_binary_range_refuted C71_fourier_refuted C71_antimeridian_refuted','true of uneven noise with increasing thresholds within the range of the field and of even sizes; other thresholds and fields of one point are NaN throughout, binary fields ignore their range, odd sizes have a wrong Fourier coordinate, fields over the antimeridian lie outside the region (findings)')
c('C72','partial','C72_rows C72_missing C72_grid C72_same C72_amsr_partial C72_amsr_none C72_visual_iced_partial C72_default_refuted C72_downsample_refuted C72_csv_refuted C72_csv_metres_refuted C72_visual_iced_refuted C72_csv_trim C72_visual_iced_files','exact whenever the x and y columns are given, and for AMSR end to end when its data reach over the region; with the default columns latitude and longitude are exchanged, AMSR data cannot be downsampled, csv files are trimmed before they are reprojected, and Visual_Ice data do not load without a given projection (findings); the fast method (rioxarray) is not modelled')
c('C73','partial','C73_csv_partial C73_shapes C73_extremes C73_edge_refuted C73_zone_refuted C73_order_refuted C73_columns_refuted C73_rejected','true of the table for shapes, and for csv files with the columns geometry and value in this order; a cell inside a polygon touching its edge has no value, means count polygons and not areas, and csv files with another order or with different value columns are not read (findings)')
c('C74','partial','C74_icenet_partial C74_icenet_only C74_icenet_last_refuted C74_ecmwf_partial C74_ecmwf_refuted C74_oras5_partial C74_oras5_refuted',"IceNet sources hold exactly the predictions, in percent, of the last forecast before the period at the cells of the region, but never for the last day of the period, so a period of one day has no data. ECMWF sources hold exactly the heights of the last run with pandas before version 2 or if the files' hours are increasing in reverse alphabetical order; otherwise KeyError. ORAS5 currents are cut to the region if on axes; on a curvilinear grid KeyError.")
c('C75','partial','C75_rebuild_partial C75_file_says C75_files C75_merged_refuted C75_folder_refuted',"the file's configuration is a fixed point for every loader, and rebuilding gives the same mesh if each source names its files in one way (sources with unset random seeds do not give the same data again). The file of a merged mesh rebuilds the mesh before merging; a source with both 'file' and 'folder' reads the folder the second time (findings). That the chosen files are chosen again is proved for ERA5/DUACS, AMSR and ECMWF; the JSON text of the file is not modelled.")
c('C76','partial','C76_directory C76_order_partial C76_all_or_nothing C76_order_refuted C76_overlap_refuted C76_outside_refuted','for files aligned with and inside the first mesh, with cells inside its cells, in full, from files to file; the order does not matter if no point is covered twice. With overlapping files the data, and with larger cells even whether cells overlap, depends on the listing order of the directory; meshes outside the bounds are accepted (findings)')
c('C77','partial','C77_features_partial C77_flags C77_text C77_save C77_unknown_format C77_png C77_emptied C77_default_output C77_flags_refuted C77_text_refuted C77_save_refuted',"in full for columns without text in which unset flags are not mixed with other or missing values. An unset flag shows as 0 rather than null as soon as one cell lacks the flag; one fill value 'Nan' fails the export with TypeError, after the file was emptied; an unknown format is only logged; PNG without a parameter file fails with UnboundLocalError (findings)")
c('C78','partial','C78_table C78_partial C78_repeated C78_fractions C78_empty C78_refuted','thresholds never decrease, and for a range of at least 8 the first three are distinct and inside the range. The last two always coincide; for values between -1 and 1 (any fraction) all four are 0; without a value the call fails after the image was written (findings)')
c('C79','partial','C79_files_partial C79_columns C79_no_files C79_gebco_variables C79_longitudes_refuted C79_undated_refuted','in full for sources without reprojection and downsampling whose name is no key of a cell, in regions not crossing the antimeridian. csv files with differently named value columns are refused even when a name is configured; longitudes 0..360 in csv files are not brought to the usual range, so such rows are silently lost, as are the rows of files without times beside files with times (findings)')
c('C80','partial','C80_one_branch C80_two_branches C80_tested_branch_refuted C80_statistics C80_function_refuted C80_collection_refuted C80_no_summary C80_expected_failure_refuted C80_tables C80_validator_refuted',"true with one branch, for tests that are methods or have parameters. With two branches only what the reference branch changed since the merge base is tested, nothing of the tested branch; a test function without parameters raises IndexError, an expected failure ValueError; test files that cannot be imported go unreported; the validator's tests are run for no change (findings)")
c('C81','proved','C81_great_circle C81_length C81_band_refuted','true as stated, over the real numbers; but a band around the whole globe has the size of its height alone (finding)')
c('C82','partial','C82_file C82_frame C82_others C82_range_refuted C82_flags_refuted C82_index_refuted','what is accepted is characterised exactly; false as stated: coordinates are not checked against any range, a column of True and False passes for coordinates, and tables whose index has the name of a column, or with columns index and level_0, raise ValueError (findings)')
c('C83','partial','C83_map C83_parts C83_flags C83_image_partial C83_constant_refuted C83_infinite_refuted C83_missing C83_not_numbers C83_antimeridian_refuted','true for regions not crossing the antimeridian and columns of numbers that are not all equal; a constant column is painted transparent, with one infinite number all finite ones look alike, names some cell lacks raise KeyError, and meshes across the antimeridian cannot be plotted: ValueError (findings)')
c('C84','partial','C84_each_once_partial C84_refuted','proved for source points that are on no edge of a cell and cells that have both values; a point on an edge is counted for each cell it touches (finding); the square root is a parameter')
c('C85','partial','C85_saved_partial C85_flags_refuted C85_refuted','which files are kept, removed and untouched is characterised exactly by the four comparisons of C43; false as stated: the results of the tests are ignored, and a new mesh that lost a cell is removed as if identical (findings)')
c('C86','partial','C86_entry C86_refuted','exact for all cells that can be drawn and data without reserved names; false as stated: the centre of a cell halfway across the antimeridian is not in its own polygon, a cell from a longitude to itself has a half width of 180, and data called cx replace the centre (findings)')
c('C87','partial','C87_generated_partial C87_settled','proved for vectors filled from the parent, with conditions on dmag (DataFrames) or none (Datasets), and names of their own; other fill types and repeated names of vectors go wrong (C22, C23), conditions on the curl are treated in Curl.v')
c('C88','partial','C88_files_partial C88_two C88_wind_refuted','in full for sources of two components without reprojection and downsampling, in regions not crossing the antimeridian; ORAS5 currents are treated singly (C69, C74). ERA5 winds at longitudes 0..360 are not brought to the usual range, unlike wave directions, so those west of Greenwich are silently lost (finding)')
c('C89','partial','C89_across_partial C89_any_loaders C89_graph_refuted C89_frames_refuted C89_standard_refuted','in full except for the graph after splits, of which it is shown that it lists nothing wrong (it can miss contacts: C89_graph_refuted), for scalar sources kept as Datasets whose longitudes lie in (-180, 180]. Sources kept as DataFrames give the cells that cross 180 the points everywhere else (C89_frames_refuted), and a point at -180 is not found by the cell that ends at 180 (C89_standard_refuted)')
c('C90','partial','C90_generated_partial C90_settled C90_csv C90_shapes C90_dated C90_median_refuted C90_name_refuted C90_unnamed_refuted','for tables aggregated by COUNT, MIN, MAX, MEAN and STD under the names of their columns, and vectors as in C87; the median of a table raises TypeError (C90_median_refuted) and a configured name of protected areas, thickness or density raises KeyError (C90_name_refuted); polygons without a configured name raise TypeError (C90_unnamed_refuted). MEAN and STD give all polygons one weight (C57, C73)')
c('C91','partial','C91_whole_partial',"for scalars and vectors from csv and netCDF files as in C88, shapes as in C93 and tables as in C90, with names of their own for vectors; the other readers' files are C21 and later claims. MEAN and STD of a table give all polygons one weight (C57, C73)")
c('C92','partial','C92_listed C92_lookup_refuted C92_built_refuted C92_lookup_partial C92_rows_partial','the list is right for every mesh; but CellBox has neither contains_point nor long, lat, width, height or add_data_points, so both look-ups raise AttributeError in every mesh with a cell, hence in every built one (finding). What they would do if CellBox had these attributes is proved as C92_lookup_partial and C92_rows_partial')
c('C93','partial','C93_described C93_shapes_partial C93_defaults_refuted','for all shapes with a resolution of at least 2 by 2, centres other than 0 or middles of an odd number of points, rectangles taken at twice their size and chequered boards with the multiplier 1 (C60); a rectangle without height and vector shapes without all their parameters raise AttributeError (finding). Shapes also stand beside the other sources in C91_whole_partial')
c('C94','partial','C94_only_outputs C94_all_or_nothing C94_create C94_rebuild_partial C94_export_json_partial C94_merge C94_stdin C94_defaults C94_merge_stdin_refuted C94_export_refuted','rebuilding for sources that name their files in one way (C75), exporting for drawable cells and data without reserved names (C25), merging for files as in C76; merge_mesh cannot read its mesh from standard input, and a GeoJSON export that fails leaves its output empty, even if that is the mesh itself (findings). Interrupted writes are not modelled: json.dump of a complete mesh succeeds')
c('C95','partial','C95_described C95_whole_partial C95_defaults_refuted','under the assumptions of C91 for the other sources; sizes of at least 2, thresholds within reach of the noise, no downsampling or reprojection, no splitting conditions for vectors; the noise itself (numpy\'s generator and Fourier transform) is a parameter; scalar_grf and binary_grf with default parameters cannot be built because the factory requires "binary" (finding)')
c('C96','partial','C96_whole_partial C96_columns_refuted','under the assumptions of C95 for the other sources; AMSR files on one grid and projected within 180 degrees, slow reprojection, no downsampling, IceNet files named by date without another dot, its leads reaching beyond the period; the projection (pyproj) and the contents of files are parameters; Visual_Ice with default columns cannot be built (finding)')
c('C97','partial','C97_whole_partial C97_modis_refuted C97_mean_refuted','under the assumptions of C96 for the other sources; without reprojection and downsampling; the angle of a vector (arctan2, in degrees) is a parameter; the arithmetic mean of directions on both sides of 0 is the opposite direction, and a configuration that names MODIS is never built (findings)')
c('C98','partial','C98_whole_partial C98_edge_refuted','for MIN, MAX, MEAN and MEDIAN, whose block values are those of C61 (means exact where nothing is missing), and for COUNT, for which the first of each block is kept; under the assumptions of C97 for the other sources; a block across the edge of a cell carries values into the next cell (finding)')
c('C99','partial','C99_whole_partial C99_order_refuted C99_oras5_refuted',"for ECMWF files in one directory on one grid, ORAS5 currents on axes of latitude and longitude; with pandas 2 or later only if the hours increase from the last name to the first, otherwise KeyError; ORAS5's own grid is never built (findings); under the assumptions of C98 for the other sources")
c('C100','partial','C100_whole_partial C100_invented_refuted C100_count_refuted','for MIN, MAX, MEAN and COUNT without conditions on the vectors and without reprojection; blocks take the largest components one by one, so that MAX can give a vector longer than every vector of the file (finding); COUNT counts only the first vector of each block (finding); under the assumptions of C99 for the other sources')
c('C101','partial','C101_whole_partial C101_outside_refuted','for MIN, MAX, MEAN, MEDIAN and COUNT, as in C98; with pandas 2 or later the hours must be in the order of the names as in C99; the forecasts are not trimmed before blocks are formed, so that a block across the edge of the region carries heights from outside it (finding)')
c('C102','partial','C102_whole_partial C102_ice_refuted','wind directions with the aggregates of C98 and currents with those of C100, under the assumptions of C101; directions are aggregated within a block as numbers, as in the finding of C97; AMSR and Visual_Ice are read on a grid without a dimension lat, so that every configuration that downsamples them by other factors than 1 and 1 with MIN, MAX, MEAN, MEDIAN, STD or COUNT ends in an error (finding)')
c('C103','partial','C103_exact C103_region C103_std_refuted','exact for MIN, MAX, MEAN, MEDIAN, STD and, for a Dataset, RMSE (COUNT is in C20); a DataFrame divides by the number of values less one and gives NaN for a single value, a Dataset divides by the number and gives 0 (finding)')
