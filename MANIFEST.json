{
 "claims": [
  {
   "property": "C01",
   "status": "proved",
   "theorems": [
    "C01_get_array_rows",
    "C01_get_array_succeeds",
    "C01_index_gap_refuted",
    "C01_empty_file_refuted",
    "C01_cut_data_refuted"
   ],
   "note": "Rows per train for every reachable collection with well-formed contiguous indexes; refuted witnesses for an index with a gap, for a dataset cut short and for a file without trains. The roi argument is C72."
  },
  {
   "property": "C02",
   "status": "proved",
   "theorems": [
    "C02_maximal_regions",
    "C02_no_trains_fails"
   ],
   "note": "For every mask; the result is the unique list of maximal regions."
  },
  {
   "property": "C03",
   "status": "proved",
   "theorems": [
    "C03_labels_in_order",
    "C03_interleaved_refuted"
   ],
   "note": "Order holds for sequence files covering separate ranges; refuted for interleaved files."
  },
  {
   "property": "C04",
   "status": "proved",
   "theorems": [
    "C04_train_from_id"
   ],
   "note": "Does not need contiguous indexes. The devices argument is in C73."
  },
  {
   "property": "C05",
   "status": "proved",
   "theorems": [
    "C05_trains_all",
    "C05_trains_agree",
    "C05_no_rows_refuted"
   ],
   "note": "The two differ exactly for keys without rows."
  },
  {
   "property": "C06",
   "status": "proved",
   "theorems": [
    "C06_cache_invisible"
   ],
   "note": "Cache is explicit state; any history of trains."
  },
  {
   "property": "C07",
   "status": "proved",
   "theorems": [
    "C07_require_all"
   ],
   "note": "Exactly the complete trains, in order, with their data."
  },
  {
   "property": "C08",
   "status": "proved",
   "theorems": [
    "C08_train_from_index"
   ],
   "note": ""
  },
  {
   "property": "C09",
   "status": "proved",
   "theorems": [
    "C09_by_index_slice",
    "C09_slice_unique",
    "C09_by_index_list",
    "C09_duplicates_refuted"
   ],
   "note": "slices of any sign; lists keep duplicates (refuted part has a witness)"
  },
  {
   "property": "C10",
   "status": "proved",
   "theorems": [
    "C10_by_id_slice",
    "C10_gap_start",
    "C10_gap_stop",
    "C10_gap_refuted",
    "C10_step",
    "C10_backwards",
    "C10_no_trains",
    "C10_gap_step",
    "C10_backwards_refuted"
   ],
   "note": "proved for bounds that are train IDs, outside the range, or numpy integers; Python ints inside a gap raise TypeError (refuted part)"
  },
  {
   "property": "C11",
   "status": "proved",
   "theorems": [
    "C11_by_id_list"
   ],
   "note": ""
  },
  {
   "property": "C12",
   "status": "proved",
   "theorems": [
    "C12_select_globs",
    "C12_select_globs_opened"
   ],
   "note": ""
  },
  {
   "property": "C13",
   "status": "proved",
   "theorems": [
    "C13_glob_meaning",
    "C13_glob_accepted",
    "C13_key_pattern"
   ],
   "note": ""
  },
  {
   "property": "C14",
   "status": "proved",
   "theorems": [
    "C14_deselect_globs",
    "C14_deselect_dict"
   ],
   "note": ""
  },
  {
   "property": "C15",
   "status": "proved",
   "theorems": [
    "C15_union_outcome",
    "C15_union_contents",
    "C15_union_data",
    "C15_union_order",
    "C15_same_content_same_data",
    "C15_union_sources_refuted"
   ],
   "note": "sources of the union proved for settled operands (every selected source held by a file); without it a witness shows a deselected source coming back"
  },
  {
   "property": "C16",
   "status": "proved",
   "theorems": [
    "C16_conflicts"
   ],
   "note": ""
  },
  {
   "property": "C17",
   "status": "proved",
   "theorems": [
    "C17_nothing_new",
    "C17_train_data",
    "C17_array_data"
   ],
   "note": ""
  },
  {
   "property": "C18",
   "status": "proved",
   "theorems": [
    "C18_narrowing",
    "C18_star_widens_refuted"
   ],
   "note": ""
  },
  {
   "property": "C19",
   "status": "proved",
   "theorems": [
    "C19_open",
    "C19_positions",
    "C19_positions_refuted",
    "C19_gap_data_refuted"
   ],
   "note": ""
  },
  {
   "property": "C20",
   "status": "proved",
   "theorems": [
    "C20_old_index"
   ],
   "note": ""
  },
  {
   "property": "C21",
   "status": "proved",
   "theorems": [
    "C21_instrument_counts",
    "C21_counts_match_array",
    "C21_control_counts_refuted",
    "C21_control_counts_one"
   ],
   "note": "Instrument sources proved; the control-source branch is broken in the code (np.ones(train_ids)) and this is proved as a refutation."
  },
  {
   "property": "C22",
   "status": "proved",
   "theorems": [
    "C22_series_rows",
    "C22_series_agrees_with_array",
    "C22_series_exists",
    "C22_file_without_rows_refuted",
    "C22_shifted_index_refuted",
    "C22_control_arrays",
    "C22_control_short"
   ],
   "note": "Values, train labels and pulse labels of get_series; agreement with get_array for indexes starting at 0; failure on files without rows and wrong values on shifted indexes are refutations of the unrestricted claim."
  },
  {
   "property": "C23",
   "status": "proved",
   "theorems": [
    "C23_dask_same_array",
    "C23_dask_same_rows",
    "C23_dask_exists",
    "C23_block_search",
    "C23_nbytes_exact",
    "C23_gap_refuted",
    "C23_ignores_selection_refuted"
   ],
   "note": "Same rows as get_array whenever both succeed; block search terminates for all sizes; two defects are proved as refutations."
  },
  {
   "property": "C24",
   "status": "proved",
   "theorems": [
    "C24_write_then_open",
    "C24_write_succeeds",
    "C24_missing_control_refuted",
    "C24_interleaved_refuted"
   ],
   "note": "Same trains, fields, arrays and per-train items for orderly collections (hypotheses in S_Writer.orderly); write() succeeds exactly when control data is complete. Refuted: missing control values make write() fail; interleaved files are written under wrong trains."
  },
  {
   "property": "C25",
   "status": "proved",
   "theorems": [
    "C25_index_covers",
    "C25_index_shape"
   ],
   "note": "Index validity for every field written; the shape part needs no hypothesis at all."
  },
  {
   "property": "C26",
   "status": "proved",
   "theorems": [
    "C26_check_is_vacuous",
    "C26_out_of_order_refuted",
    "C26_never_detected"
   ],
   "note": "The promised check can never fail (uint64 differences); data out of order is written with a wrong index."
  },
  {
   "property": "C27",
   "status": "proved",
   "theorems": [
    "C27_virtual_dataset",
    "C27_virtual_empty",
    "C27_write_virtual",
    "C27_virtual_control_refuted"
   ],
   "note": "Virtual datasets show the rows of get_array; the virtual file is reopened with the same arrays. Refuted for train_from_id on control sources with missing trains."
  },
  {
   "property": "C28",
   "status": "proved",
   "theorems": [
    "C28_passed_is_usable",
    "C28_wrapped_count_refuted",
    "C28_ragged_index_refuted"
   ],
   "note": "For files whose counts are below 2^63 and datasets below 2^53 rows. Refuted parts: wrapping counts pass; first/count of different length raise instead of being reported."
  },
  {
   "property": "C29",
   "status": "proved",
   "theorems": [
    "C29_usable_passes",
    "C29_no_trains_refuted"
   ],
   "note": "For files with at least one train. A file without trains makes validation raise IndexError."
  },
  {
   "property": "C30",
   "status": "proved",
   "theorems": [
    "C30_instrument_data",
    "C30_trains",
    "C30_control_unchecked_refuted"
   ],
   "note": "Instrument data. Control sources are not validated: refuted for them."
  },
  {
   "property": "C31",
   "status": "proved",
   "theorems": [
    "C31_old_or_new"
   ],
   "note": "One saver, killed at any point: the file is the old one until the saver has finished, then all of the new one. File system modelled as names, inodes and appends; os.replace atomic. Power failures out of scope, as the docstring says."
  },
  {
   "property": "C32",
   "status": "proved",
   "theorems": [
    "C32_complete_maps",
    "C32_last_saver"
   ],
   "note": "Any number of savers and readers, any interleaving, any failing step."
  },
  {
   "property": "C33",
   "status": "proved",
   "theorems": [
    "C33_transparent",
    "C33_same_as_uncached",
    "C33_map_right",
    "C33_same_stat_refuted",
    "C33_in_place_refuted"
   ],
   "note": "Data files replaced or removed, any number of processes, any interleaving. The property fails for a replacement with the same size and time, and for files changed in place between opening and saving (both refuted with witnesses)."
  },
  {
   "property": "C34",
   "status": "proved",
   "theorems": [
    "C34_save_load",
    "C34_no_save"
   ],
   "note": "Here a map is saved and loaded as a list of entries; its JSON text is C88."
  },
  {
   "property": "C35",
   "status": "proved",
   "theorems": [
    "C35_opens",
    "C35_no_files",
    "C35_unreadable_refuted",
    "C35_write_error_refuted"
   ],
   "note": "Proved for absent and damaged caches and permission errors on writing; refuted for unreadable caches, other JSON, and other write errors."
  },
  {
   "property": "C36",
   "status": "proved",
   "theorems": [
    "C36_module_number",
    "C36_accepts",
    "C36_result",
    "C36_errors",
    "C36_three_shapes"
   ],
   "note": "numpy arrays of any rank; an axis below -ndim is accepted once more round (see stack_axis)"
  },
  {
   "property": "C37",
   "status": "proved",
   "theorems": [
    "C37_views_good",
    "C37_one_module",
    "C37_all_modules",
    "C37_other_axis_refuted",
    "C37_last_axes_refuted",
    "C37_negative_refuted",
    "C37_two_ellipses_refuted",
    "C37_some_modules"
   ],
   "note": "the exceptions named in the statement are the refuted theorems"
  },
  {
   "property": "C38",
   "status": "proved",
   "theorems": [
    "C38_order",
    "C38_accepts",
    "C38_errors",
    "C38_numbers"
   ],
   "note": ""
  },
  {
   "property": "C39",
   "status": "proved",
   "theorems": [
    "C39_frames",
    "C39_everything",
    "C39_accepts",
    "C39_gap_error",
    "C39_misattribution_refuted"
   ],
   "note": "frames are attributed to their trains when each index entry starts where the previous one ends; C39_misattribution_refuted: an index entry (0,0) of an empty train makes get_array return frames of another train"
  },
  {
   "property": "C40",
   "status": "proved",
   "theorems": [
    "C40_selections",
    "C40_frames",
    "C40_index_order",
    "C40_negative_refuted",
    "C40_limit_refuted"
   ],
   "note": "for selections inside the unsigned range and pulse IDs below 2700; the refuted theorems show that negative numbers wrap around silently and that by_id[0:2700] returns IDs from 2700 on"
  },
  {
   "property": "C41",
   "status": "proved",
   "theorems": [
    "C41_frames",
    "C41_same_as_array",
    "C41_unsorted_refuted",
    "C41_empty_refuted"
   ],
   "note": "a step-1 slice of pulse IDs needs sorted pulse IDs (refuted otherwise); an empty selection raises with old h5py"
  },
  {
   "property": "C42",
   "status": "proved",
   "theorems": [
    "C42_open",
    "C42_name"
   ],
   "note": "all outcomes of making a detector"
  },
  {
   "property": "C43",
   "status": "proved",
   "theorems": [
    "C43_frames",
    "C43_complete",
    "C43_names",
    "C43_accepts",
    "C43_labels",
    "C43_labels_refuted",
    "C43_gain_labels"
   ],
   "note": "Any division into files and chunks. The internal assertions hold and the loop ends (C43_accepts). Finding: with missing modules the module labels are shorter than the columns and do not name them (C43_labels_refuted)."
  },
  {
   "property": "C44",
   "status": "proved",
   "theorems": [
    "C44_pulses",
    "C44_refuses",
    "C43_accepts",
    "C44_marker_refuted"
   ],
   "note": "Exact for pulse IDs below 9999. Finding: a pulse ID equal to 9999 is taken for missing and the file refused (C44_marker_refuted)."
  },
  {
   "property": "C45",
   "status": "proved",
   "theorems": [
    "C45_order",
    "C45_replies",
    "C45_settles",
    "C45_answers",
    "C45_serve_files",
    "C45_serve_program",
    "C45_empty_refuted",
    "C45_request_refuted"
   ],
   "note": "Order, limits and answers hold for every schedule; two refuted cases: a message without parts and an unknown request end the server thread."
  },
  {
   "property": "C46",
   "status": "proved",
   "theorems": [
    "C46_unsent",
    "C46_stopped",
    "C46_lost_refuted",
    "C46_last_reply_refuted",
    "C46_waits_refuted",
    "C46_blocks_refuted"
   ],
   "note": "The property as a user would want it does not hold: the refuted theorems exhibit (for every list of trains) the loss, and the blocking for every continuation; what does hold is C46_unsent and C46_stopped."
  },
  {
   "property": "C47",
   "status": "proved",
   "theorems": [
    "C47_roundtrip",
    "C47_accepts",
    "C47_timestamps",
    "C47_bool_refuted",
    "C47_v1_roundtrip",
    "C47_v1_metadata_refuted",
    "C47_copy",
    "C47_timestamps_in_data",
    "C47_timestamps_given",
    "C47_versions",
    "C47_documented_version_refuted"
   ],
   "note": "messages of both protocols are decoded by a model of the client to the data fed; exact acceptance condition; numpy booleans are refused and metadata arguments are not sent in protocol 1.0 (refuted parts)"
  },
  {
   "property": "C48",
   "status": "proved",
   "theorems": [
    "C48_partition",
    "C48_inside",
    "C48_slices",
    "C48_split"
   ],
   "note": ""
  },
  {
   "property": "C49",
   "status": "proved",
   "theorems": [
    "C49_corners",
    "C49_centres",
    "C49_coordinates",
    "C49_agree",
    "C49_dssc_not_implemented",
    "C49_far_edge_refuted"
   ],
   "note": "Exact rational arithmetic; coordinates at the far edge of a module are answered with the next module (refuted part)."
  },
  {
   "property": "C50",
   "status": "proved",
   "theorems": [
    "C50_assembled",
    "C50_every_pixel",
    "C50_not_aligned",
    "C50_refused"
   ],
   "note": "Exact rational arithmetic; one frame (several frames are C99)."
  },
  {
   "property": "C51",
   "status": "proved",
   "theorems": [
    "C51_corners",
    "C51_neighbours"
   ],
   "note": ""
  },
  {
   "property": "C52",
   "status": "proved",
   "theorems": [
    "C52_round_trip",
    "C52_frame_needed",
    "C52_accepts",
    "C52_wrong_type"
   ],
   "note": "Numbers exact; the loader of cfelpyutils is modelled by the CrystFEL rules."
  },
  {
   "property": "C53",
   "status": "proved",
   "theorems": [
    "C53_quadrants",
    "C53_quadrant_modules",
    "C53_modules",
    "C53_only_panels",
    "C53_total"
   ],
   "note": ""
  },
  {
   "property": "C54",
   "status": "proved",
   "theorems": [
    "C54_agipd_corners",
    "C54_agipd_pixels",
    "C54_agipd_unit_refuted",
    "C54_lpd",
    "C54_lpd_grid",
    "C54_four_positions"
   ],
   "note": "The claim about pixel steps is refuted for AGIPD with a unit other than the pixel."
  },
  {
   "property": "C55",
   "status": "proved",
   "theorems": [
    "C55_directory",
    "C55_forms",
    "C55_distinct",
    "C55_path",
    "C55_unpadded_refuted"
   ],
   "note": "The results of glob.iglob are an arbitrary parameter."
  },
  {
   "property": "C56",
   "status": "proved",
   "theorems": [
    "C56_range",
    "C56_only_next",
    "C56_past_end_refuted",
    "C56_shown",
    "C56_pos_refuted",
    "C56_constructor_refuted",
    "C56_display",
    "C56_new_data",
    "C56_constructor_small",
    "C56_no_data"
   ],
   "note": "The property is violated by next at the last frame, the setter of pos and the constructor; the theorems prove both the violation and what does hold."
  },
  {
   "property": "C57",
   "status": "proved",
   "theorems": [
    "C57_unambiguous",
    "C57_one_tuple_refuted",
    "C57_expression"
   ],
   "note": ""
  },
  {
   "property": "C58",
   "status": "proved",
   "theorems": [
    "C58_control_names",
    "C58_instrument_names",
    "C58_keys_readable",
    "C58_dotted_name_refuted"
   ],
   "note": ""
  },
  {
   "property": "C59",
   "status": "proved",
   "theorems": [
    "C59_from_paths"
   ],
   "note": ""
  },
  {
   "property": "C60",
   "status": "proved",
   "theorems": [
    "C60_select_dict",
    "C60_empty_keys_refuted",
    "C60_other_type_refuted",
    "C60_unknown_key_refuted"
   ],
   "note": ""
  },
  {
   "property": "C61",
   "status": "proved",
   "theorems": [
    "C61_access_caches_invisible"
   ],
   "note": ""
  },
  {
   "property": "C62",
   "status": "proved",
   "theorems": [
    "C62_run_passes",
    "C62_no_cache_refuted",
    "C62_no_cache_error"
   ],
   "note": "Exact characterisation; refuted: without cached map validation always raises."
  },
  {
   "property": "C63",
   "status": "proved",
   "theorems": [
    "C63_complete_trains",
    "C63_min_modules_refuted"
   ],
   "note": "the refuted theorem shows that trains kept by min_modules are not yielded"
  },
  {
   "property": "C64",
   "status": "proved",
   "theorems": [
    "C64_identifiers",
    "C64_unique"
   ],
   "note": "For non-negative train IDs."
  },
  {
   "property": "C65",
   "status": "proved",
   "theorems": [
    "C65_unknown_source",
    "C65_unknown_key",
    "C65_read_is_available"
   ],
   "note": "get_dask_array does not check: see C23_ignores_selection_refuted."
  },
  {
   "property": "C66",
   "status": "proved",
   "theorems": [
    "C66_array_type",
    "C66_mismatch"
   ],
   "note": ""
  },
  {
   "property": "C67",
   "status": "proved",
   "theorems": [
    "C47_roundtrip",
    "C67_snapshot_refuted",
    "C67_v1_snapshot"
   ],
   "note": "refuted for protocol 2.2 (memory views are queued); holds while the arrays are not written, and always for protocol 1.0"
  },
  {
   "property": "C68",
   "status": "proved",
   "theorems": [
    "C68_columns",
    "C68_exists",
    "C68_none",
    "C68_names"
   ],
   "note": "Columns as series; the alignment of their rows is C79."
  },
  {
   "property": "C69",
   "status": "proved",
   "theorems": [
    "C69_interpolation_refuted",
    "C69_scale",
    "C69_offset",
    "C69_canvas",
    "C69_canvas_exists",
    "C69_scale_all"
   ],
   "note": "The property is violated by the code; the theorem refutes it for all AGIPD geometries made from quadrant positions. C69_scale and C69_offset say what the mapping is."
  },
  {
   "property": "C70",
   "status": "proved",
   "theorems": [
    "C70_lpd",
    "C70_dssc",
    "C70_invert",
    "C70_invert_twice_refuted",
    "C70_lpd_accepts",
    "C70_dssc_accepts",
    "C70_invert_accepts"
   ],
   "note": "Inverting twice is refuted."
  },
  {
   "property": "C71",
   "status": "proved",
   "theorems": [
    "C71_panel_data",
    "C71_panel_dims",
    "C71_consistent",
    "C71_names"
   ],
   "note": ""
  },
  {
   "property": "C72",
   "status": "proved",
   "theorems": [
    "C72_roi_selects",
    "C72_no_array",
    "C72_single",
    "C72_default",
    "C72_window",
    "C72_one_value",
    "C72_default_names",
    "C72_given_names",
    "C72_not_by_index",
    "C72_backwards_refuted"
   ],
   "note": "Backward slices are refused by h5py: C72_backwards_refuted. Lists, masks and None in the expression are not modelled."
  },
  {
   "property": "C73",
   "status": "proved",
   "theorems": [
    "C73_train_from_id",
    "C73_missing_train",
    "C73_train_from_index",
    "C73_trains",
    "C73_no_match",
    "C73_opened_run",
    "C73_no_star",
    "C73_star_widens_refuted"
   ],
   "note": "For opened runs (as C12_select_globs_opened); with a train range, the files of a source must have the same keys."
  },
  {
   "property": "C74",
   "status": "proved",
   "theorems": [
    "C74_detector_info",
    "C74_uniform",
    "C74_estimate_refuted",
    "C74_train_info",
    "C74_ignores_selection_refuted",
    "C74_info",
    "C74_info_ok",
    "C74_no_images_refuted",
    "C74_backwards_refuted"
   ],
   "note": "The text printed is C98. Refuted parts: the estimate can be too small without a warning if files differ; train_info lists sources which are not selected; info fails with KeyError for a detector source without image data, and with OverflowError for trains selected backwards."
  },
  {
   "property": "C75",
   "status": "proved",
   "theorems": [
    "C75_find_offset",
    "C75_leaf_paths",
    "C75_read",
    "C75_assembled",
    "C75_shape",
    "C75_integers_refuted",
    "C75_tiles",
    "C75_same_tiles",
    "C75_unit_refuted",
    "C75_no_fragment",
    "C75_no_quadrant",
    "C75_all_quadrants",
    "C75_labels"
   ],
   "note": "Exact rationals instead of float64. Refuted parts: the unit is not used for tiles; integer data cannot be assembled (filling with NaN fails)."
  },
  {
   "property": "C76",
   "status": "proved",
   "theorems": [
    "C76_filename",
    "C76_parts",
    "C76_description_refuted",
    "C76_run",
    "C76_run_total",
    "C76_all_trains",
    "C76_all_trains_refuted",
    "C76_single",
    "C76_several",
    "C76_status_refuted",
    "C76_empty_run_refuted",
    "C76_file",
    "C76_file_line",
    "C76_file_line_refuted",
    "C76_file_dims"
   ],
   "note": "Values in the printed lines, not their wording. Refuted parts: trains of all files; description of unknown sources; exit code of a single unrecognised directory; an empty run ends the listing; files not of a detector among several paths."
  },
  {
   "property": "C77",
   "status": "proved",
   "theorems": [
    "C77_grid",
    "C77_outcome",
    "C77_trains",
    "C77_trains_accepts",
    "C77_trains_refused",
    "C77_trains_parts",
    "C77_trains_empty"
   ],
   "note": "Assumes, as C39 does, well formed files of the modules and the limit of 2700 pulses. xarray and pandas are modelled by their documented behaviour (unstack, outer join)."
  },
  {
   "property": "C78",
   "status": "proved",
   "theorems": [
    "C78_writes",
    "C78_detector",
    "C78_refused",
    "C78_distinct",
    "C78_root_refuted",
    "C78_lpd_refuted"
   ],
   "note": "C78_writes is an equivalence between the outcome of the command and its specification, C78_detector links it to C43, C44 and C64, C78_refused gives the error endings, C78_distinct that default files are never shared. Refuted corners: a run in /raw or /proc itself gets a default file relative to the current directory (C78_root_refuted), and an AGIPD which cannot be opened hides a usable LPD (C78_lpd_refuted). argparse, os.access races, paths with line breaks, int() of texts with spaces or underscores and errors of h5py while writing are not modelled."
  },
  {
   "property": "C79",
   "status": "proved",
   "theorems": [
    "C79_table",
    "C79_exists",
    "C79_cells",
    "C79_rows",
    "C79_repeated_refuted"
   ],
   "note": "The order of the rows when labels differ is that of Index.union with sorting (pandas of the time); a mixture of columns by train and by pulse is taken as an error. C79_repeated_refuted: with a repeated pulse ID there is no table."
  },
  {
   "property": "C80",
   "status": "proved",
   "theorems": [
    "C80_written",
    "C80_contents",
    "C80_axes",
    "C80_cellid_refuted"
   ],
   "note": "Full statement for the datasets under the detector; refuted for entry_1/cellId, whose axes name a module_identifier that is not next to it (C80_cellid_refuted). Items of the data are assumed to have two or three dimensions (C80_axes)."
  },
  {
   "property": "C81",
   "status": "proved",
   "theorems": [
    "C81_reports",
    "C81_ragged",
    "C81_run"
   ],
   "note": "Reports are an exact description of the file for all files within the stated limits; numbers of 2^52 and above are excluded because of the float64 subtraction (see C28_wrapped_count_refuted)."
  },
  {
   "property": "C82",
   "status": "proved",
   "theorems": [
    "C82_run_files",
    "C82_validated",
    "C82_directory",
    "C82_file",
    "C82_hidden_refuted",
    "C82_magic_refuted"
   ],
   "note": "The words printed are not modelled. Two refuted variants: hidden files, and directories with pattern characters in their names."
  },
  {
   "property": "C83",
   "status": "proved",
   "theorems": [
    "C83_train",
    "C83_array",
    "C83_iterator",
    "C83_iterator_undisturbed",
    "C83_lazy",
    "C83_compute",
    "C83_with",
    "C83_lazy_closed",
    "C83_iterator_survives_refuted"
   ],
   "note": "Histories over a model of open handles. The refuted variant and C83_lazy_closed record that iterators and dask arrays do not survive the with block in which they were made."
  },
  {
   "property": "C84",
   "status": "proved",
   "theorems": [
    "C84_listing",
    "C84_shapes",
    "C84_unambiguous",
    "C84_all_names_refuted"
   ],
   "note": "The order in which h5py visits the members of a group is the order of the list in the model, which is arbitrary."
  },
  {
   "property": "C85",
   "status": "proved",
   "theorems": [
    "C85_valid",
    "C85_generations",
    "C85_again"
   ],
   "note": "Copies made by write(); the copies of write_virtual() are validated, but a control source without data for some trains makes them not orderly (C27)."
  },
  {
   "property": "C86",
   "status": "proved",
   "theorems": [
    "C86_places",
    "C86_one_run",
    "C86_own",
    "C86_apart",
    "C86_copies_refuted",
    "C86_newline_refuted"
   ],
   "note": "Word characters are those of ASCII; realpath and isdir are parameters."
  },
  {
   "property": "C87",
   "status": "proved",
   "theorems": [
    "C87_join",
    "C87_whole",
    "C87_twice",
    "C87_order",
    "C87_order_deselect",
    "C87_order_refuted"
   ],
   "note": "The result of the refuted direction is recorded in DESIGN.md."
  },
  {
   "property": "C88",
   "status": "proved",
   "theorems": [
    "C88_round_trip",
    "C88_truncated",
    "C88_errors",
    "C88_saved_map",
    "C88_readers",
    "C88_harmless",
    "C88_surrogates_refuted",
    "C88_strings"
   ],
   "note": "repr and float() of modification times are parameters assumed to give the same number back. Surrogate pairs in names are the exception shown by C88_surrogates_refuted."
  },
  {
   "property": "C89",
   "status": "proved",
   "theorems": [
    "C89_unpack",
    "C89_packs",
    "C89_self_delimiting",
    "C89_message",
    "C89_any_message"
   ],
   "note": "Protocol 2.2; strings stand for their UTF-8 encoding."
  },
  {
   "property": "C90",
   "status": "proved",
   "theorems": [
    "C90_lines",
    "C90_order",
    "C90_broken",
    "C90_unambiguous",
    "C90_all_members_refuted",
    "C90_spaces_refuted",
    "C90_negative",
    "C90_negative_broken"
   ],
   "note": ""
  },
  {
   "property": "C91",
   "status": "proved",
   "theorems": [
    "C91_converts",
    "C91_new_format",
    "C91_header_refuted",
    "C91_numpy",
    "C91_errors"
   ],
   "note": "The CBF file is its name, header and data."
  },
  {
   "property": "C92",
   "status": "proved",
   "theorems": [
    "C92_inspect",
    "C92_inspect_accepts",
    "C92_inspect_units",
    "C92_names",
    "C92_compare",
    "C92_compare_outcome",
    "C92_compare_size_refuted",
    "C92_compare_view_refuted",
    "C92_labels"
   ],
   "note": "Where matplotlib puts the points of an arrow is a parameter."
  },
  {
   "property": "C93",
   "status": "proved",
   "theorems": [
    "C93_plot",
    "C93_overlay",
    "C93_half_pixel_refuted",
    "C93_overlay_dssc_refuted",
    "C93_refused",
    "C93_options"
   ],
   "note": "imshow is modelled by dividing its extent evenly into cells."
  },
  {
   "property": "C94",
   "status": "proved",
   "theorems": [
    "C94_serve_files",
    "C94_command",
    "C94_command_refuted"
   ],
   "note": "The serialisation is a parameter: any function whose messages for some data have parts (C47 and C89 are about the serialisations of the code)."
  },
  {
   "property": "C95",
   "status": "proved",
   "theorems": [
    "C95_layout",
    "C95_images"
   ],
   "note": "For files in which every tile is there and names are unique."
  },
  {
   "property": "C96",
   "status": "proved",
   "theorems": [
    "C96_plot_data",
    "C96_plot_data_error",
    "C96_inspect",
    "C96_printed"
   ],
   "note": "Colours and sizes of lines and fonts are left out; the text of an offset is a parameter."
  },
  {
   "property": "C97",
   "status": "proved",
   "theorems": [
    "C97_same_frames",
    "C97_all_frames"
   ],
   "note": "A train with one frame is left out: its data has no axis of frames (reader.py squeezes it), so it is not stacked by frames."
  },
  {
   "property": "C98",
   "status": "proved",
   "theorems": [
    "C98_duration",
    "C98_duration_unique",
    "C98_text"
   ],
   "note": "Durations are exact multiples of a tenth of a second; the float of the code is rounded to microseconds, which is exact below 2^33 seconds."
  },
  {
   "property": "C99",
   "status": "proved",
   "theorems": [
    "C99_frames",
    "C99_pixels",
    "C99_refused",
    "C99_output_array",
    "C99_reuse"
   ],
   "note": "Exact rational arithmetic as for C50. Whether a type can be cast is a parameter."
  },
  {
   "property": "C100",
   "status": "proved",
   "theorems": [
    "C100_axes",
    "C100_frames",
    "C100_pixels",
    "C100_train_pixels"
   ],
   "note": "When the array can be made is C77_outcome. Concatenation along train and module is that of M_Grid, where a frame is one value; xarray keeps the order of dimensions."
  },
  {
   "property": "C101",
   "status": "proved",
   "theorems": [
    "C101_text",
    "C101_unique",
    "C101_run"
   ],
   "note": "Indent and name of a run are seen together. Which values are printed for which path is C76; the text of info is C98. Output encoding: UTF-8."
  },
  {
   "property": "C102",
   "status": "proved",
   "theorems": [
    "C102_text",
    "C102_unique"
   ],
   "note": "Which problems are found is C62, C81 and C82. Of an exception on opening a file the text is seen."
  },
  {
   "property": "C103",
   "status": "proved",
   "theorems": [
    "C103_field",
    "C103_train",
    "C103_unique",
    "C103_quotes"
   ],
   "note": "Characters above 127 are taken as printable bytes."
  },
  {
   "property": "C104",
   "status": "proved",
   "theorems": [
    "C104_unpack",
    "C104_self_delimiting",
    "C104_packs",
    "C104_any_message",
    "C104_message"
   ],
   "note": "Assumed: numpy reads a floating point number back from its bytes (numpy_floats). Structured types and Python's complex numbers are not modelled."
  },
  {
   "property": "C105",
   "status": "proved",
   "theorems": [
    "C105_text",
    "C105_writable",
    "C105_round_trip",
    "C105_set_me",
    "C105_path_refuted"
   ],
   "note": "Assumed of each number in the file: its text is one word and float() reads it back (good_number). C105_path_refuted shows that a path with a semicolon does not come back."
  },
  {
   "property": "C106",
   "status": "proved",
   "theorems": [
    "C106_agipd",
    "C106_whole_pixels",
    "C106_lpd",
    "C106_lpd_file",
    "C106_dssc",
    "C106_binary64",
    "C106_half_refuted",
    "C106_flat",
    "C106_agipd_metres",
    "C106_lpd_metres",
    "C106_lpd_file_metres",
    "C106_dssc_metres"
   ],
   "note": "C106_agipd, C106_lpd, C106_lpd_file and C106_dssc: images equal for every arithmetic within float64's error; C106_whole_pixels: the condition holds for whole pixels; C106_binary64: IEEE rounding to 53 places is such an arithmetic; C106_half_refuted: the documentation's geometry, where a corner lies half way, differs. C106_flat: corners and directions stay in the plane z = 0 for all inputs. C106_agipd_metres, C106_lpd_metres, C106_lpd_file_metres, C106_dssc_metres: coordinates to 1.5e-13 m without the condition on halves."
  },
  {
   "property": "C107",
   "status": "proved",
   "theorems": [
    "C107_read",
    "C107_refused",
    "C107_write_read",
    "C107_metres_read",
    "C107_metres_write_read"
   ],
   "note": "Any arithmetic with float64's error bound; coordinates up to 20 m, numbers in pixels 1e-8 away from halves. The parser of cfelpyutils is modelled by the rules of the format (as in C52); overflow and NaN are left out. C107_metres_read and C107_metres_write_read: all three coordinates of the tiles to 1.5e-13 m."
  },
  {
   "property": "C108",
   "status": "proved",
   "theorems": [
    "C108_clear",
    "C108_one_pixel",
    "C108_refused",
    "C108_whole_pixels_refuted"
   ],
   "note": "The last theorem is the counterexample for tiles at whole pixels, with a file of whole half millimetres: float64 gives an image of another size and centre."
  },
  {
   "property": "C109",
   "status": "proved",
   "theorems": [
    "C109_corners",
    "C109_centres",
    "C109_coordinates",
    "C109_agree",
    "C109_distortion",
    "C109_binary32",
    "C109_refused",
    "C109_file",
    "C109_write_read",
    "C109_agipd",
    "C109_lpd",
    "C109_lpd_file",
    "C109_dssc"
   ],
   "note": "The geometry's own numbers are taken as they are; the rounding in the constructors is in C106. C109_file and C109_write_read: the whole way from a CrystFEL file to pixel positions, to 1e-10 m. C109_agipd, C109_lpd, C109_lpd_file, C109_dssc: the whole way from the arguments of the constructors."
  }
 ]
}