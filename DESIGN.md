# Formal model of karabo_data: design

## Method

Shallow, executable Gallina model of the Python code, using Coq's standard library only.
Python exceptions are values of an inductive type `exn`; a function that may raise returns
`res A := Ok a | Err e`.  Concurrency (processes saving the cached map, streaming threads) is a
transition system, and theorems quantify over all its runs.  Loops whose termination is not
structural carry fuel, and running out of fuel is a distinguished error which the theorems
exclude.  Every model definition cites the file and lines of /repo it models and says what it
simplifies.

Files (rocq/theories):

* `Base.v` result monad, Python lists, slices, dictionaries, numpy helpers; `PyStr.v` Python
  string functions.
* `M_*.v` model files, one per source module or group of functions.
* `S_*.v` small specifications, written from the documentation, not using model helpers.
* `L_*.v` lemmas.
* `P_*.v` property theorems only (`exact lemma`), each followed by `Print Assumptions` and by an
  `Example` in which a concrete case meets the hypotheses.  `Ex_*.v` holds the concrete files and
  `L_Check*.v` boolean checkers which decide the hypotheses for them.

A property which the code violates has a theorem named `..._refuted` giving a witness (or holding
for a whole class of inputs), and a positive theorem stating the condition under which it does
hold.  The statements in properties.jsonl are the ones that hold: where the documentation
promises more, the statement names the exception and the refuted theorem shows it.

## Trusted base

* The kernel of Coq 8.16.1 (and coqchk, which `vcheck` runs over the compiled files).
* `Print Assumptions` answers "Closed under the global context" for every property theorem: no
  axioms are used, of the library or otherwise.  coqchk lists the axioms of `Coq.ssr.ssrunder`,
  which is in the standard library and is loaded by other library files; no theorem depends on it.
* The correspondence of model and code: the definitions were written from the text of /repo and
  from the documented behaviour of Python, numpy, h5py, pandas, ZeroMQ and msgpack; nothing was
  executed.

## Which code is modelled

| /repo/karabo_data | Modelled | In | Not modelled |
|---|---|---|---|
| reader.py `FileAccess` 74-203 | opening, data sources, format version, indexes of both formats, keys, caches, opening from cached information | M_Files | h5py itself: a file is a tree of named datasets, each a list of rows with a type and an item shape |
| reader.py 96-105, 279-293, 716-765, 1230-1297 | the `file` property, close(), with blocks, reading through handles, dataset objects kept by iterators and dask arrays | M_Handles | one FileAccess per file name; h5py: closing a file invalidates the dataset objects opened through that handle (ValueError); files change only by being removed |
| reader.py `DataCollection` 205-1300 | constructor, conflict check, from_paths, keys_for_source, check_field, trains, train_from_id/index, get_array (also with a region of interest), get_dask_array, get_series, get_dataframe, get_data_counts, select, deselect, select_trains, union, write, write_virtual, get_virtual_dataset, detector_info, train_info, info, the `devices` and `train_range` arguments | M_Reader, M_Series, M_Frame, M_Select, M_Roi, M_Info, M_InfoText, M_Writer | |
| reader.py `TrainIterator` 1220-1298 | all, with its dataset cache as state | M_Reader | |
| reader.py `RunDirectory`, `open_run` 1317-1390 | all; directory listings are a parameter | M_FilesMap, M_OpenRun, M_Validate | |
| read_machinery.py | by_id, by_index, slices of trains, contiguous_regions, union_selections, find_proposal, FilenameInfo, repr | M_Machinery, M_Select, M_OpenRun, M_Repr, M_Lsxfel | |
| writer.py | FileWriter, VirtualFileWriter | M_Writer | HDF5 chunking options |
| validation.py | FileValidator, RunValidator, main; glob.glob as used there | M_Validation, M_Validate, M_ValText | |
| exceptions.py | all | M_Messages | |
| run_files_map.py | all, with a file system of names, inodes and appended bytes; the candidate paths with the regular expression | M_FilesMap, M_Regex, M_CachePath, M_Json | power failures; RecursionError and the limit on integer digits of json.load; repr of floats; letters outside ASCII in \\w |
| stacking.py | stack_data, stack_detector_data, StackView | M_Nd, M_Stacking | |
| components.py | MPxDetectorBase, LPD/AGIPD/DSSC, pulse selection, iterator; the labelled arrays made by xarray | M_Components, M_Grid, M_DetDims | |
| write_cxi.py | VirtualCXIWriter | M_Cxi, M_CxiFile | log messages, fill values, the HDF5 format |
| export.py | serialisation of both protocols, ZMQStreamer, REPInterface, serve_files, main | M_Export, M_Msgpack, M_MsgpackNp, M_Stream, M_Serve | ZeroMQ itself; structured types and Python's complex numbers in protocol 1.0; msgpack's limit of 511 nested containers |
| geometry2/ | tiles, quadrant and file positions, snapped geometry, assembly of one or many frames, interpolation offsets, distortion arrays, data coordinates, CrystFEL writing and reading, inspect, compare and plot_data_fast | M_Geom, M_GeomFloat, M_PosFloat, M_GeomNd, M_Crystfel, M_CrystFloat, M_CrystText, M_Plot | floating point rounding (exact rationals) except in the constructors, snapping, positions, distortion arrays and CrystFEL files (M_GeomFloat, M_PosFloat, M_CrystFloat; overflow and NaN are left out), colours, fonts and colour bars of plots, spline interpolation, the parser of cfelpyutils |
| utils.py | all | M_QuickView, M_Utils | loops of links in hdf5_paths; the CBF format (fabio) |
| geometry.py | fragments, reading, splitting into tiles, assembling images, plots, printed form | M_OldGeom, M_OldPlot, M_OldFloat | floating point rounding in plots, overflow and NaN, colours and fonts, the text of an offset |
| lsxfel.py | all | M_Lsxfel, M_LsText | |
| cli/make_virtual_cxi.py | main | M_MakeCxi | argparse, log messages |
| h5index.py | hdf5_datasets, with h5py's visititems and Python's csv.writer | M_H5Index | argparse; the order in which h5py visits members is that of the list |

Common simplifications, repeated at the definitions: dataset values are an abstract type `V`, so
the theorems hold for values of every type; integers are unbounded except where the code's
fixed-width arithmetic matters (uint64 index differences, counts, unsigned pulse numbers, the
int64 sizes of get_dask_array), where it is modelled; numpy's and pandas' errors are modelled by the
class of exception; warnings and printed text are left out; sets are lists without duplicates,
and theorems speak of membership.

## Properties, models and proofs

Status is that of MANIFEST.json. Every theorem is in the file named, with a concrete example.

| Id | Property | Proof | Theorems | Remarks |
|---|---|---|---|---|
| C01 | get_array returns exactly the indexed rows of the selected trains | induction over regions and chunks, against the rule `data[first:first+count]` of docs/data_format.rst | P_Reader: C01_get_array_rows, C01_get_array_succeeds, C01_index_gap_refuted, C01_empty_file_refuted, C01_cut_data_refuted | Rows per train for every reachable collection with well-formed contiguous indexes; refuted witnesses for an index with a gap, for a dataset cut short and for a file without trains. The roi argument is C72. |
| C02 | Selected trains are split into maximal contiguous regions | induction over the mask; uniqueness of maximal regions | P_Reader: C02_maximal_regions, C02_no_trains_fails | For every mask; the result is the unique list of maximal regions. |
| C03 | get_array labels are in increasing train order when sequence files do not interleave | sorted concatenation of chunks | P_Reader: C03_labels_in_order, C03_interleaved_refuted | Order holds for sequence files covering separate ranges; refuted for interleaved files. |
| C04 | train_from_id returns exactly the indexed data of that train | case analysis per source and key against the same rule | P_Reader: C04_train_from_id | Does not need contiguous indexes. The devices argument is in C73. |
| C05 | trains() agrees with train_from_id for every train | cache invariant, then C04 | P_Reader: C05_trains_all, C05_trains_agree, C05_no_rows_refuted | The two differ exactly for keys without rows. |
| C06 | The dataset cache of trains() is invisible | invariant of the cache over any history | P_Reader: C06_cache_invisible | Cache is explicit state; any history of trains. |
| C07 | require_all skips exactly the incomplete trains | induction over trains with the cache | P_Reader: C07_require_all | Exactly the complete trains, in order, with their data. |
| C08 | train_from_index is Python indexing of train_ids | Python indexing lemma | P_Reader: C08_train_from_index |  |
| C09 | select_trains by index keeps Python slice semantics | slice arithmetic | P_SelTrains: C09_by_index_slice, C09_slice_unique, C09_by_index_list, C09_duplicates_refuted | slices of any sign; lists keep duplicates (refuted part has a witness) |
| C10 | select_trains by an ID range gives exactly the trains in the range | sorted lists, binary search specification | P_SelStep, P_SelTrains: C10_by_id_slice, C10_gap_start, C10_gap_stop, C10_gap_refuted, C10_step, C10_backwards, C10_no_trains, C10_gap_step, C10_backwards_refuted | proved for bounds that are train IDs, outside the range, or numpy integers; Python ints inside a gap raise TypeError (refuted part) |
| C11 | select_trains by an ID list gives the sorted intersection | sorted intersection | P_SelTrains: C11_by_id_list |  |
| C12 | select with glob patterns picks exactly the matching sources and keys | membership characterisation | P_Select: C12_select_globs, C12_select_globs_opened |  |
| C13 | Glob patterns mean what the documentation says | equivalence of the translated regular expression with a declarative matching relation | P_Select: C13_glob_meaning, C13_glob_accepted, C13_key_pattern |  |
| C14 | deselect is the complement of select | set complement | P_Select: C14_deselect_globs, C14_deselect_dict |  |
| C15 | union contains everything and ignores order | membership; permutation of files | P_Select: C15_union_outcome, C15_union_contents, C15_union_data, C15_union_order, C15_same_content_same_data, C15_union_sources_refuted | sources of the union proved for settled operands (every selected source held by a file); without it a witness shows a deselected source coming back |
| C16 | Conflicting files are always detected | induction over files | P_Select: C16_conflicts |  |
| C17 | Selecting never changes data | induction over histories of operations | P_Select: C17_nothing_new, C17_train_data, C17_array_data |  |
| C18 | Key selection only narrows except through "*" | membership | P_Select: C18_narrowing, C18_star_widens_refuted |  |
| C19 | Opening a file finds its trains and sources | string and list lemmas | P_Open: C19_open, C19_positions, C19_positions_refuted, C19_gap_data_refuted |  |
| C20 | Old-format indexes give the right counts | uint64 arithmetic | P_Open: C20_old_index |  |
| C21 | get_data_counts gives the number of rows per train | reduction to rows per train | P_Series: C21_instrument_counts, C21_counts_match_array, C21_control_counts_refuted, C21_control_counts_one | Instrument sources proved; the control-source branch is broken in the code (np.ones(train_ids)) and this is proved as a refutation. |
| C22 | get_series agrees with get_array | reduction to rows per train | P_Series: C22_series_rows, C22_series_agrees_with_array, C22_series_exists, C22_file_without_rows_refuted, C22_shifted_index_refuted, C22_control_arrays, C22_control_short | Values, train labels and pulse labels of get_series; agreement with get_array for indexes starting at 0; failure on files without rows and wrong values on shifted indexes are refutations of the unrestricted claim. |
| C23 | get_dask_array has the content of get_array | reduction to C01; halving terminates | P_Series: C23_dask_same_array, C23_dask_same_rows, C23_dask_exists, C23_block_search, C23_nbytes_exact, C23_gap_refuted, C23_ignores_selection_refuted | Same rows as get_array whenever both succeed; block search terminates for all sizes; two defects are proved as refutations. |
| C24 | write() then reopen gives the same data per train | composition of writing, opening and reading | P_Writer: C24_write_then_open, C24_write_succeeds, C24_missing_control_refuted, C24_interleaved_refuted | Same trains, fields, arrays and per-train items for orderly collections (hypotheses in S_Writer.orderly); write() succeeds exactly when control data is complete. Refuted: missing control values make write() fail; interleaved files are written under wrong trains. |
| C25 | Written indexes are always valid | induction over written trains | P_Writer: C25_index_covers, C25_index_shape | Index validity for every field written; the shape part needs no hypothesis at all. |
| C26 | The order of written data is not checked | modular arithmetic | P_Writer, P_WriterOrder: C26_check_is_vacuous, C26_out_of_order_refuted, C26_never_detected | The promised check can never fail (uint64 differences); data out of order is written with a wrong index. |
| C27 | Virtual datasets show the same rows as get_array | composition, layout of virtual sources | P_Writer: C27_virtual_dataset, C27_virtual_empty, C27_write_virtual, C27_virtual_control_refuted | Virtual datasets show the rows of get_array; the virtual file is reopened with the same arrays. Refuted for train_from_id on control sources with missing trains. |
| C28 | A file that validates has a usable index | equivalence with declarative validity | P_Validation: C28_passed_is_usable, C28_wrapped_count_refuted, C28_ragged_index_refuted | For files whose counts are below 2^63 and datasets below 2^53 rows. Refuted parts: wrapping counts pass; first/count of different length raise instead of being reported. |
| C29 | A good file produces no report | equivalence with declarative validity | P_Validation: C29_usable_passes, C29_no_trains_refuted | For files with at least one train. A file without trains makes validation raise IndexError. |
| C30 | Validated files can be read consistently | C28 and C04 | P_Validation: C30_instrument_data, C30_trains, C30_control_unchecked_refuted | Instrument data. Control sources are not validated: refuted for them. |
| C31 | The cached run map is never seen half-written | invariant over all steps and crash points | P_FilesMap: C31_old_or_new | One saver, killed at any point: the file is the old one until the saver has finished, then all of the new one. File system modelled as names, inodes and appends; os.replace atomic. Power failures out of scope, as the docstring says. |
| C32 | Concurrent savers never garble the cached map | invariant over all interleavings | P_FilesMap: C32_complete_maps, C32_last_saver | Any number of savers and readers, any interleaving, any failing step. |
| C33 | The cache is transparent | invariant over histories of file replacements | P_FilesMap: C33_transparent, C33_same_as_uncached, C33_map_right, C33_same_stat_refuted, C33_in_place_refuted | Data files replaced or removed, any number of processes, any interleaving. The property fails for a replacement with the same size and time, and for files changed in place between opening and saving (both refuted with witnesses). |
| C34 | A saved map can be loaded again | round trip | P_FilesMap: C34_save_load, C34_no_save | Here a map is saved and loaded as a list of entries; its JSON text is C88. |
| C35 | Cache problems never stop a run from being opened | case analysis over failures | P_FilesMap: C35_opens, C35_no_files, C35_unreadable_refuted, C35_write_error_refuted | Proved for absent and damaged caches and permission errors on writing; refuted for unreadable caches, other JSON, and other write errors. |
| C36 | stack_detector_data puts each module in its place | extensional equality of arrays | P_Stacking: C36_module_number, C36_accepts, C36_result, C36_errors, C36_three_shapes | numpy arrays of any rank; an axis below -ndim is accepted once more round (see stack_axis) |
| C37 | StackView behaves like the real stacked array | extensional equality for every index expression | P_Stacking: C37_views_good, C37_one_module, C37_all_modules, C37_other_axis_refuted, C37_last_axes_refuted, C37_negative_refuted, C37_two_ellipses_refuted, C37_some_modules | the exceptions named in the statement are the refuted theorems |
| C38 | stack_data orders sources by their embedded numbers | decimal parsing, sorting | P_Stacking: C38_order, C38_accepts, C38_errors, C38_numbers |  |
| C39 | Detector get_array labels every frame with its train and pulse | list lemmas over files, chunks and frames | P_Components: C39_frames, C39_everything, C39_accepts, C39_gap_error, C39_misattribution_refuted | frames are attributed to their trains when each index entry starts where the previous one ends; C39_misattribution_refuted: an index entry (0,0) of an empty train makes get_array return frames of another train |
| C40 | Pulse selections select the pulses asked for | selection arithmetic | P_Components: C40_selections, C40_frames, C40_index_order, C40_negative_refuted, C40_limit_refuted | for selections inside the unsigned range and pulse IDs below 2700; the refuted theorems show that negative numbers wrap around silently and that by_id[0:2700] returns IDs from 2700 on |
| C41 | Iterating and batch reading select the same pulses | comparison of batch and iterator | P_Components: C41_frames, C41_same_as_array, C41_unsorted_refuted, C41_empty_refuted | a step-1 slice of pulse IDs needs sorted pulse IDs (refuted otherwise); an empty selection raises with old h5py |
| C42 | min_modules keeps exactly the trains with enough modules | counting | P_Components: C42_open, C42_name | all outcomes of making a detector |
| C43 | Virtual CXI files place every frame at its train and module | loop invariant over chunks | P_Cxi: C43_frames, C43_complete, C43_names, C43_accepts, C43_labels, C43_labels_refuted, C43_gain_labels | Any division into files and chunks. The internal assertions hold and the loop ends (C43_accepts). Finding: with missing modules the module labels are shorter than the columns and do not name them (C43_labels_refuted). |
| C44 | CXI pulse IDs are consistent across modules | loop invariant | P_Cxi: C44_pulses, C44_refuses, C43_accepts, C44_marker_refuted | Exact for pulse IDs below 9999. Finding: a pulse ID equal to 9999 is taken for missing and the file refused (C44_marker_refuted). |
| C45 | Streaming delivers trains in order, each once | invariant over all schedules | P_Stream: C45_order, C45_replies, C45_settles, C45_answers, C45_serve_files, C45_serve_program, C45_empty_refuted, C45_request_refuted | Order, limits and answers hold for every schedule; two refuted cases: a message without parts and an unknown request end the server thread. |
| C46 | Streaming shutdown | invariant over all schedules; witnesses for every list of trains | P_Stream: C46_unsent, C46_stopped, C46_lost_refuted, C46_last_reply_refuted, C46_waits_refuted, C46_blocks_refuted | The property as a user would want it does not hold: the refuted theorems exhibit (for every list of trains) the loss, and the blocking for every continuation; what does hold is C46_unsent and C46_stopped. |
| C47 | Serialised train data can be decoded | round trip through a model of the client | P_Export: C47_roundtrip, C47_accepts, C47_timestamps, C47_bool_refuted, C47_v1_roundtrip, C47_v1_metadata_refuted, C47_copy, C47_timestamps_in_data, C47_timestamps_given, C47_versions, C47_documented_version_refuted | messages of both protocols are decoded by a model of the client to the data fed; exact acceptance condition; numpy booleans are refused and metadata arguments are not sent in protocol 1.0 (refuted parts) |
| C48 | Tiles partition each module | arithmetic of tiles | P_Geom: C48_partition, C48_inside, C48_slices, C48_split |  |
| C49 | Data coordinates and pixel positions agree | linear arithmetic over Q | P_Geom: C49_corners, C49_centres, C49_coordinates, C49_agree, C49_dssc_not_implemented, C49_far_edge_refuted | Exact rational arithmetic; coordinates at the far edge of a module are answered with the next module (refuted part). |
| C50 | Assembled images contain every pixel at its grid position | induction over tiles and pixels | P_Geom: C50_assembled, C50_every_pixel, C50_not_aligned, C50_refused | Exact rational arithmetic; one frame (several frames are C99). |
| C51 | Distortion array corners match pixel positions | linear arithmetic over Q | P_Geom: C51_corners, C51_neighbours |  |
| C52 | CrystFEL export and import are inverse | string printing and parsing, round trip | P_Geom, P_GeomErrors: C52_round_trip, C52_frame_needed, C52_accepts, C52_wrong_type | Numbers exact; the loader of cfelpyutils is modelled by the CrystFEL rules. |
| C53 | Rigid groups cover each panel once | induction over panels | P_Geom: C53_quadrants, C53_quadrant_modules, C53_modules, C53_only_panels, C53_total |  |
| C54 | Quadrant positions are honoured in the given unit | linear arithmetic over Q | P_Geom: C54_agipd_corners, C54_agipd_pixels, C54_agipd_unit_refuted, C54_lpd, C54_lpd_grid, C54_four_positions | The claim about pixel steps is refuted for AGIPD with a unit other than the pixel. |
| C55 | open_run accepts equivalent forms of proposal and run numbers | decimal printing | P_Misc: C55_directory, C55_forms, C55_distinct, C55_path, C55_unpadded_refuted | The results of glob.iglob are an arbitrary parameter. |
| C56 | Quick view stays inside the data | state machine | P_Misc: C56_range, C56_only_next, C56_past_end_refuted, C56_shown, C56_pos_refuted, C56_constructor_refuted, C56_display, C56_new_data, C56_constructor_small, C56_no_data | The property is violated by next at the last frame, the setter of pos and the constructor; the theorems prove both the violation and what does hold. |
| C57 | Slice objects print as the expression that creates them | injectivity of printing | P_Misc: C57_unambiguous, C57_one_tuple_refuted, C57_expression |  |
| C58 | Names survive writing and reopening | string lemmas | P_Open: C58_control_names, C58_instrument_names, C58_keys_readable, C58_dotted_name_refuted |  |
| C59 | Unusable files are skipped, never fatal | induction over files | P_Open: C59_from_paths |  |
| C60 | Selection by dictionary | membership | P_Select: C60_select_dict, C60_empty_keys_refuted, C60_other_type_refuted, C60_unknown_key_refuted |  |
| C61 | Repeated reading of indexes and keys gives the same answer | cache invariant | P_Open: C61_access_caches_invisible |  |
| C62 | Run validation covers files and cached map | equivalence | P_Validation: C62_run_passes, C62_no_cache_refuted, C62_no_cache_error | Exact characterisation; refuted: without cached map validation always raises. |
| C63 | trains() of a detector yields the complete trains | induction over trains | P_Components: C63_complete_trains, C63_min_modules_refuted | the refuted theorem shows that trains kept by min_modules are not yielded |
| C64 | Frame identifiers in CXI files | decimal printing, injectivity | P_Cxi: C64_identifiers, C64_unique | For non-negative train IDs. |
| C65 | Only selected fields can be read | case analysis | P_Field: C65_unknown_source, C65_unknown_key, C65_read_is_available | get_dask_array does not check: see C23_ignores_selection_refuted. |
| C66 | Arrays have the type of the data in every file | case analysis over chunks | P_Field: C66_array_type, C66_mismatch |  |
| C67 | Streamed data are those passed to feed() | round trip with mutable buffers | P_Export: C47_roundtrip, C67_snapshot_refuted, C67_v1_snapshot | refuted for protocol 2.2 (memory views are queued); holds while the arrays are not written, and always for protocol 1.0 |
| C68 | get_dataframe has one column per field | induction over fields | P_Frame: C68_columns, C68_exists, C68_none, C68_names | Columns as series; the alignment of their rows is C79. |
| C69 | Interpolated assembly takes values from the right place | linear arithmetic over Q | P_Geom: C69_interpolation_refuted, C69_scale, C69_offset, C69_canvas, C69_canvas_exists, C69_scale_all | The property is violated by the code; the theorem refutes it for all AGIPD geometries made from quadrant positions. C69_scale and C69_offset say what the mapping is. |
| C70 | Geometry files give the positions in the file | list lemmas | P_Geom, P_GeomErrors: C70_lpd, C70_dssc, C70_invert, C70_invert_twice_refuted, C70_lpd_accepts, C70_dssc_accepts, C70_invert_accepts | Inverting twice is refuted. |
| C71 | CrystFEL panels point at their tile's data | parsing of the written panels | P_Geom: C71_panel_data, C71_panel_dims, C71_consistent, C71_names |  |
| C72 | A region of interest reads exactly that part of the array | M_Roi models numpy's index on the dummy and h5py's selection separately; proof that both resolve an expression to the same positions, then induction over the chunks; special cases (window, one value) stated without numpy's index rules | P_Roi: C72_roi_selects, C72_no_array, C72_single, C72_default, C72_window, C72_one_value, C72_default_names, C72_given_names, C72_not_by_index, C72_backwards_refuted | Backward slices are refused by h5py: C72_backwards_refuted. Lists, masks and None in the expression are not modelled. |
| C73 | The devices and train_range arguments only restrict what is read | composition of select, select_trains and reading; C12 gives the keys, narrowing lemmas (C17) transport the data, dropped files are shown to hold no selected train | P_Args: C73_train_from_id, C73_missing_train, C73_train_from_index, C73_trains, C73_no_match, C73_opened_run, C73_no_star, C73_star_widens_refuted | For opened runs (as C12_select_globs_opened); with a train range, the files of a source must have the same keys. |
| C74 | Detector and train summaries agree with the files | M_Info; detector_info from the counts of the first file, set.pop an arbitrary choice function; the number of rows of an array is the sum over trains of the labelled rows (C01); info by permutation of the source lists | P_Info: C74_detector_info, C74_uniform, C74_estimate_refuted, C74_train_info, C74_ignores_selection_refuted, C74_info, C74_info_ok, C74_no_images_refuted, C74_backwards_refuted | The text printed is C98. Refuted parts: the estimate can be too small without a warning if files differ; train_info lists sources which are not selected; info fails with KeyError for a detector source without image data, and with OverflowError for trains selected backwards. |
| C75 | The deprecated LPD geometry places every tile where the file says | M_OldGeom, a tree of fragments; induction on the tree for paths and offsets; bounds of the image by monotonicity of floor; induction over the 256 tiles in order for the assembled image | P_OldGeom: C75_find_offset, C75_leaf_paths, C75_read, C75_assembled, C75_shape, C75_integers_refuted, C75_tiles, C75_same_tiles, C75_unit_refuted, C75_no_fragment, C75_no_quadrant, C75_all_quadrants, C75_labels | Exact rationals instead of float64. Refuted parts: the unit is not used for tiles; integer data cannot be assembled (filling with NaN fails). |
| C76 | lsxfel counts files and trains as it says | M_Lsxfel, output as a list of lines with the exception or exit code; regular expressions as the greedy matches they are; an invariant of the scan over the directory; induction over the paths | P_Lsxfel: C76_filename, C76_parts, C76_description_refuted, C76_run, C76_run_total, C76_all_trains, C76_all_trains_refuted, C76_single, C76_several, C76_status_refuted, C76_empty_run_refuted, C76_file, C76_file_line, C76_file_line_refuted, C76_file_dims | Values in the printed lines, not their wording. Refuted parts: trains of all files; description of unknown sources; exit code of a single unrecognised directory; an empty run ends the listing; files not of a detector among several paths. |
| C77 | Detector arrays are grids of modules, trains and pulses with every frame in its cell | M_Grid builds the arrays position by position: unstacking, alignment of the axes, concatenation; a grid is shown to hold exactly the frames of the parts it was made of; the parts (file and run of trains) are intervals of trains, so that sorting by the first train sorts all trains | P_Grid: C77_grid, C77_outcome, C77_trains, C77_trains_accepts, C77_trains_refused, C77_trains_parts, C77_trains_empty | Assumes, as C39 does, well formed files of the modules and the limit of 2700 pulses. xarray and pandas are modelled by their documented behaviour (unstack, outer join). |
| C78 | karabo-data-make-virtual-cxi reads the run and writes the file its arguments mean, or writes nothing | M_MakeCxi models the command with os.path (normpath, abspath, join, dirname) and the regular expression as functions on strings; abspath is shown to follow the words of a path from the current directory; then the outcome is equivalent to a relation between arguments, run and file | P_MakeCxi: C78_writes, C78_detector, C78_refused, C78_distinct, C78_root_refuted, C78_lpd_refuted | C78_writes is an equivalence between the outcome of the command and its specification, C78_detector links it to C43, C44 and C64, C78_refused gives the error endings, C78_distinct that default files are never shared. Refuted corners: a run in /raw or /proc itself gets a default file relative to the current directory (C78_root_refuted), and an AGIPD which cannot be opened hides a usable LPD (C78_lpd_refuted). argparse, os.access races, paths with line breaks, int() of texts with spaces or underscores and errors of h5py while writing are not modelled. |
| C79 | get_dataframe lines its columns up by train | M_Frame models pd.concat(axis=1): sorted union of the row labels, reindexing with NaN, the error for repeated labels; composed with C68 (columns) and C22 (series against files) | P_Frame2: C79_table, C79_exists, C79_cells, C79_rows, C79_repeated_refuted | The order of the rows when labels differ is that of Index.union with sorting (pandas of the time); a mixture of columns by train and by pulse is taken as an error. C79_repeated_refuted: with a repeated pulse ID there is no table. |
| C80 | A virtual CXI file has the layout its readers look for | M_CxiFile models the HDF5 file as a tree of groups, datasets and soft links, made by the same sequence of creations as in write; objects are looked up by paths with links followed (S_CxiFile.object), and the theorems speak about every path | P_CxiFile: C80_written, C80_contents, C80_axes, C80_cellid_refuted | Full statement for the datasets under the detector; refuted for entry_1/cellId, whose axes name a module_identifier that is not next to it (C80_cellid_refuted). Items of the data are assumed to have two or three dimensions (C80_axes). |
| C81 | Validation reports exactly the problems that are there | S_Report.is_wrong says for each kind of message what it claims about the contents of the file; L_Report shows that the lists of problems computed in M_Validation contain exactly the true ones, by characterising each numpy expression (positions of non-zero entries, maximum, float64 differences below 2^53) | P_Report: C81_reports, C81_ragged, C81_run | Reports are an exact description of the file for all files within the stated limits; numbers of 2^52 and above are excluded because of the float64 subtraction (see C28_wrapped_count_refuted). |
| C82 | karabo-data-validate checks the .h5 files of the directory and its exit status says whether something is wrong | M_Validate models os.listdir and fnmatch in RunDirectory, glob.glob on the pattern dir/*.h5 (with its recursion on the directory part) and main; L_Validate computes the pattern's directory and name part for every plain directory name and any number of slashes | P_Report: C82_run_files, C82_validated, C82_directory, C82_file, C82_hidden_refuted, C82_magic_refuted | The words printed are not modelled. Two refuted variants: hidden files, and directories with pattern characters in their names. |
| C83 | Files closed by a with block can be read again; objects handed out earlier never give other data | M_Handles re-expresses the readers over a state of open handles (numbered, never reused) and dataset objects tied to a handle; L_Handles(2) shows that each reader simulates the pure one of M_Reader, L_Handles3 carries an invariant over all histories of reading, iterating, leaving blocks and removing files | P_Handles: C83_train, C83_array, C83_iterator, C83_iterator_undisturbed, C83_lazy, C83_compute, C83_with, C83_lazy_closed, C83_iterator_survives_refuted | Histories over a model of open handles. The refuted variant and C83_lazy_closed record that iterators and dask arrays do not survive the with block in which they were made. |
| C84 | The CSV listing of a file's datasets is complete and readable | M_H5Index: a file is a graph of objects with hard and soft links; visititems is a fuelled depth-first walk over hard links with the set of objects seen; L_H5Index proves by induction over the walk that it reaches every object once, under a path that leads to it; L_H5Index2 proves that an independent CSV reader (S_H5Index) recovers the rows, and that the text of a shape determines it | P_H5Index: C84_listing, C84_shapes, C84_unambiguous, C84_all_names_refuted | The order in which h5py visits the members of a group is the order of the list in the model, which is arbitrary. |
| C85 | Written files pass validation and can be copied again | M_Writer with M_Validation: the index written for every field is shown to satisfy S_Validation.usable_index (L_Copies), so that the theorem of C29 applies to the file; that a collection opened from a written file is again orderly is proved for one step, and carried to any number of copies by induction over the chain | P_Copies: C85_valid, C85_generations, C85_again | Copies made by write(); the copies of write_virtual() are validated, but a control source without data for some trains makes them not orderly (C27). |
| C86 | The cached map of a run is kept in its directory or under a name of its own | M_Regex: a backtracking matcher in continuation style, proved sound and complete for the language of an expression with its groups (L_CachePath); M_CachePath: the expression and the joined paths; the groups are unique because names have no slashes; the cache file name determines the names of the run | P_CachePath: C86_places, C86_one_run, C86_own, C86_apart, C86_copies_refuted, C86_newline_refuted | Word characters are those of ASCII; realpath and isdir are parameters. |
| C87 | Selections of trains can be split, joined, nested, and exchanged with selections of data | on M_Select: parts made by select_trains have the selection of the whole and the files overlapping their trains; the union's file list has no duplicates and lies in a conflict-free list; same_content of S_Hist (trains, sources, keys, which file holds what) is proved by extensionality; selecting data and trains commute because uniform files keep the meaning of patterns | P_TrainAlgebra: C87_join, C87_whole, C87_twice, C87_order, C87_order_deselect, C87_order_refuted | The result of the refuted direction is recorded in DESIGN.md. |
| C88 | The text of the cached map is read back exactly, and a damaged one is recognised | M_Json: json.dump(indent=2) and json.load as functions on lists of code points; the reader is a recursive descent on fuel, and fuel is proved irrelevant (L_Json); what is read from a text is the same when characters are appended, unless the value can go on (L_Json2), which makes a cut-off text fail; round trip by induction on values (L_Json3); the map of M_FilesMap is translated to values and back (L_Json4), and the file-system theorem C32 is instantiated with characters. repr and float() of modification times are parameters, assumed to round trip | P_Json: C88_round_trip, C88_truncated, C88_errors, C88_saved_map, C88_readers, C88_harmless, C88_surrogates_refuted, C88_strings | repr and float() of modification times are parameters assumed to give the same number back. Surrogate pairs in names are the exception shown by C88_surrogates_refuted. |
| C89 | The bytes of a streamed message determine the data | M_Msgpack: the packer of msgpack-python on the wire values of M_Export; S_Msgpack: a reader written from the msgpack specification, by the first byte; round trip with anything following, by induction on values; the client of S_Export is given bytes only and simulates the one of C47 | P_Msgpack: C89_unpack, C89_packs, C89_self_delimiting, C89_message, C89_any_message | Protocol 2.2; strings stand for their UTF-8 encoding. |
| C90 | The listing of an HDF5 file shows what is in it | M_Utils: the recursion over a tree of names; lines by induction on trees; the text is read back by the indentation, which ends a group where it gets smaller, and by repeated lines, which mark what is not a group | P_Utils, P_UtilsNeg: C90_lines, C90_order, C90_broken, C90_unambiguous, C90_all_members_refuted, C90_spaces_refuted, C90_negative, C90_negative_broken |  |
| C91 | The image converted to CBF is the one asked for | M_Utils with the selection rules of h5py from M_Roi; the outcome is equivalent to a relation between file, index and image | P_Utils: C91_converts, C91_new_format, C91_header_refuted, C91_numpy, C91_errors | The CBF file is its name, header and data. |
| C92 | Plots of the layout show the tiles where they are | M_Plot: what is drawn, as polygons, markers, segments, arrows and texts with their places; S_Plot: a polygon shows a tile if its convex hull is exactly the image of the tile's points; by computation on corners and a lemma about parallelograms | P_Plot: C92_inspect, C92_inspect_accepts, C92_inspect_units, C92_names, C92_compare, C92_compare_outcome, C92_compare_size_refuted, C92_compare_view_refuted, C92_labels | Where matplotlib puts the points of an arrow is a parameter. |
| C93 | Plots of data show each pixel where it is | M_Plot on top of the assembled image of C50; imshow places cells by dividing the extent evenly (in_cell of S_Plot); edges of cells are compared with the pixel grid, half a pixel off at most | P_Plot: C93_plot, C93_overlay, C93_half_pixel_refuted, C93_overlay_dssc_refuted, C93_refused, C93_options | imshow is modelled by dividing its extent evenly into cells. |
| C94 | Only the chosen data are served | M_Serve on top of select (C12), trains (C05) and the streamer (C45): the messages of every schedule are compared with the part of each train's data which the patterns hit | P_Serve: C94_serve_files, C94_command, C94_command_refuted | The serialisation is a parameter: any function whose messages for some data have parts (C47 and C89 are about the serialisations of the code). |
| C95 | Deprecated and present LPD geometry agree | both geometries of one file are described by C70 and C75; every point of a tile is compared, then the images through C50 and C75 | P_Migrate: C95_layout, C95_images | For files in which every tile is there and names are unique. |
| C96 | Plots and printed form of the deprecated geometry | M_OldPlot records what is drawn; induction over the modules and tiles drawn, compared with the places where C75 puts data; the printed form by induction over the tree, with an independent definition of its outline | P_OldPlot: C96_plot_data, C96_plot_data_error, C96_inspect, C96_printed | Colours and sizes of lines and fonts are left out; the text of an offset is a parameter. |
| C97 | Stacked train data and labelled detector arrays agree | C77 gives the cell as a frame of a file, the lemma behind C04 the value of the module in the train as rows of the same file, and C36 their place in the stacked array | P_Agree: C97_same_frames, C97_all_frames | A train with one frame is left out: its data has no axis of frames (reader.py squeezes it), so it is not stacked by frames. |
| C98 | The text of info() is unambiguous | M_InfoText builds the text; a relation of texts and durations written from the documentation of timedelta; the text is cut into lines, and each line read from the left, so that equal texts have equal values | P_InfoText: C98_duration, C98_duration_unique, C98_text | Durations are exact multiples of a tenth of a second; the float of the code is rounded to microseconds, which is exact below 2^33 seconds. |
| C99 | Assembling many frames at once | M_GeomNd follows the code with arrays of any number of dimensions (indexing with an ellipsis, split, swapaxes, assignment to a block with numpy's bounds); every step is shown to do to each frame what the model of one frame (C50) does, and the blocks to lie inside the image | P_GeomNd: C99_frames, C99_pixels, C99_refused, C99_output_array, C99_reuse | Exact rational arithmetic as for C50. Whether a type can be cast is a parameter. |
| C100 | Dimensions and pixels of detector arrays | M_DetDims follows _guess_axes with arrays of any number of named dimensions (removal of the spurious axis, unstack, transpose), shown to agree with the model in which a frame is one value; the pixels of the detector array then follow from C77 with rows of datasets taken as functions of the index tuple, and the shape from the walk over files and chunks of C39 | P_DetDims: C100_axes, C100_frames, C100_pixels, C100_train_pixels | When the array can be made is C77_outcome. Concatenation along train and module is that of M_Grid, where a frame is one value; xarray keeps the order of dimensions. |
| C101 | Text printed by lsxfel | M_LsText prints each output line of M_Lsxfel; the relation tells (S_LsText) says with decimal numerals what the printed lines must be; the last letters of a line show its kind, the counts in headings how many lines follow, so by induction over the output equal texts have equal values | P_LsText: C101_text, C101_unique, C101_run | Indent and name of a run are seen together. Which values are printed for which path is C76; the text of info is C98. Output encoding: UTF-8. |
| C102 | Report of karabo-data-validate | M_ValText prints each line of the report of M_Validate; the relation tells_line (S_ValText) says with decimal numerals what must be printed; a text without line breaks in names determines its lines, and the first line of each problem its kind and numbers, so by induction equal reports state the same problems | P_ValText: C102_text, C102_unique | Which problems are found is C62, C81 and C82. Of an exception on opening a file the text is seen. |
| C103 | Messages of exceptions | M_Messages gives the texts of the three exceptions and where they are raised; S_Messages defines Python string literals inductively; repr of a string is proved to be a literal for it, and literals are proved to determine their string and where they end, so the message determines the names | P_Messages: C103_field, C103_train, C103_unique, C103_quotes | Characters above 127 are taken as printable bytes. |
| C104 | Bytes of messages of protocol 1.0 | M_MsgpackNp models the dictionaries of msgpack_numpy.encode and their bytes; S_MsgpackNp is an unpacker after the msgpack specification with msgpack_numpy.decode; unpacking what was packed is proved by induction over values, acceptance by the lengths; conversion of floating point numbers of numpy to bytes and back is a hypothesis | P_MsgpackNp: C104_unpack, C104_self_delimiting, C104_packs, C104_any_message, C104_message | Assumed: numpy reads a floating point number back from its bytes (numpy_floats). Structured types and Python's complex numbers are not modelled. |
| C105 | Text of CrystFEL geometry files | M_CrystText gives the lines of the text of the file written by write_crystfel_geom, S_CrystText a reader after the rules of the format (semicolons start comments, lines are key = value); every line is shown to say the entry of M_Crystfel it stands for, values to be read back by their keys; that float() reads a formatted number back is a hypothesis; reading is shown to respect equality of numbers, so C52 gives the geometry back | P_CrystText: C105_text, C105_writable, C105_round_trip, C105_set_me, C105_path_refuted | Assumed of each number in the file: its text is one word and float() reads it back (good_number). C105_path_refuted shows that a path with a semicolon does not come back. |
| C106 | Floating point rounding does not move tiles | M_GeomFloat repeats the constructors and snapping with a rounding function applied after every operation; float64 (S_GeomFloat) bounds its error; error bounds are carried through each expression (L_GeomFloat to L_GeomFloat4) and rounding to the pixel grid gives the same integer when clear of the middle; binary64 is IEEE rounding to 53 places; the failing case is computed | P_GeomFlat, P_GeomFloat, P_GeomMetres: C106_agipd, C106_whole_pixels, C106_lpd, C106_lpd_file, C106_dssc, C106_binary64, C106_half_refuted, C106_flat, C106_agipd_metres, C106_lpd_metres, C106_lpd_file_metres, C106_dssc_metres | C106_agipd, C106_lpd, C106_lpd_file and C106_dssc: images equal for every arithmetic within float64's error; C106_whole_pixels: the condition holds for whole pixels; C106_binary64: IEEE rounding to 53 places is such an arithmetic; C106_half_refuted: the documentation's geometry, where a corner lies half way, differs. C106_flat: corners and directions stay in the plane z = 0 for all inputs. C106_agipd_metres, C106_lpd_metres, C106_lpd_file_metres, C106_dssc_metres: coordinates to 1.5e-13 m without the condition on halves. |
| C107 | Rounding in CrystFEL files does not move pixels | M_CrystFloat repeats writing and reading with every division rounded and every number of the file rounded when it is read; lines with related numbers are shown to give related panel dictionaries (L_CrystFloat2), the relative errors of the two divisions are bounded (L_CrystFloat), and tiles within 1e-8 pixels snap alike; C52 gives the exact geometry read back | P_CrystFloat, P_CrystMetres: C107_read, C107_refused, C107_write_read, C107_metres_read, C107_metres_write_read | Any arithmetic with float64's error bound; coordinates up to 20 m, numbers in pixels 1e-8 away from halves. The parser of cfelpyutils is modelled by the rules of the format (as in C52); overflow and NaN are left out. C107_metres_read and C107_metres_write_read: all three coordinates of the tiles to 1.5e-13 m. |
| C108 | Rounding errors with the deprecated LPD geometry | M_OldFloat repeats reading and assembling with every product and sum rounded, and divides by the float64 for the pixel size; trees with the same names and near offsets are shown to give near sums (L_OldFloat), and numbers clear of whole ones have the same floor; the counterexample is computed with binary64 | P_OldFloat: C108_clear, C108_one_pixel, C108_refused, C108_whole_pixels_refuted | The last theorem is the counterexample for tiles at whole pixels, with a file of whole half millimetres: float64 gives an image of another size and centre. |
| C109 | Rounding errors in pixel positions and distortion arrays | M_PosFloat repeats the loops with every product and sum rounded, and rounds to float32 where the distortion array is written; the errors of one coordinate are bounded once (L_PosFloat), the loops keep arrays near each other, and the minimum of near numbers is near; C49 and C51 say what the exact numbers are | P_PosFloat, P_PosMade, P_PosMetres: C109_corners, C109_centres, C109_coordinates, C109_agree, C109_distortion, C109_binary32, C109_refused, C109_file, C109_write_read, C109_agipd, C109_lpd, C109_lpd_file, C109_dssc | The geometry's own numbers are taken as they are; the rounding in the constructors is in C106. C109_file and C109_write_read: the whole way from a CrystFEL file to pixel positions, to 1e-10 m. C109_agipd, C109_lpd, C109_lpd_file, C109_dssc: the whole way from the arguments of the constructors. |

## Findings: behaviour of the code that the documentation does not promise

Each is a theorem `<name>_refuted` (witness or general statement) unless marked "seen in the text".

Reading
* C01_index_gap: an index with unused rows between trains makes get_array fail or shift rows, since
  only the first row and the total are used. C01_empty_file: a file without trains raises.
* C03_interleaved: files of one source with interleaved train ranges give labels out of order.
* C05_no_rows: trains() leaves out keys which train_from_id also leaves out, but differs for sources without rows.
* C09_duplicates: select_trains(by_index[[...]]) keeps repeated trains.
* C10_gap: a Python integer bound which falls between two train IDs raises TypeError.
* C15_union_sources, C18_star_widens, C73_star_widens, C60_*: a deselected source comes back after union;
  selecting with `*` (also through devices=) restores keys; a dictionary with an empty key set, an unknown key, or an argument of
  another type is not handled as documented.
* C19_positions, C19_gap_data: zeros anywhere in the train ID list are dropped although rows of the
  index keep their places, so later trains get the data of others.
* C01_cut_data: when a file holds a single row where the index promises several, read_direct repeats it
  for all of them. C72_backwards: a region of interest with a negative step fails in h5py.
* C74_backwards: info() raises OverflowError for trains selected backwards.
* C74_estimate, C74_ignores_selection, C74_no_images: total_frames can be too small without a warning;
  train_info lists deselected sources; info fails for a detector source without images.
* C21_control_counts: get_data_counts raises for control sources. C22_file_without_rows,
  C22_shifted_index: get_series raises for files without rows and is wrong for an index not starting
  at row 0. C23_gap, C23_ignores_selection: get_dask_array does not check the selection.
* C24_missing_control, C24_interleaved, C26_out_of_order, C27_virtual_control: write() fails for
  missing control values; its check for data out of order can never fail because differences are
  unsigned, so such data are written under the wrong trains.
* C58_dotted_name: a source whose name has a dot is read back differently.

Validation and cache
* C28_wrapped_count, C28_ragged_index, C29_no_trains, C30_control_unchecked, C62_no_cache.
* C33_same_stat, C33_in_place, C35_unreadable, C35_write_error. Seen in the text: when os.replace
  fails the temporary file stays behind.

Detector data
* C37_*: StackView indexing differs from numpy on other axes, for negative and repeated ellipsis indexes.
* C39_misattribution, C40_limit, C40_negative, C41_empty, C41_unsorted, C63_min_modules.
* C43_labels, C44_marker.
* C79_repeated: get_dataframe raises ValueError if a pulse ID occurs twice in a train and the columns differ in rows.
* C78_root, C78_lpd: karabo-data-make-virtual-cxi writes the default file of a run in /raw below the current directory,
  and gives up when a run has an AGIPD which cannot be used, even if there is an LPD.

* C83_lazy_closed, C83_iterator_survives_refuted: dask arrays and iterators made inside a with block fail after it,
  although the collection itself can still be read; reading it after the block leaves its files open.

Streaming
* C45_empty, C45_request: an empty message or an unknown request ends the server thread.
* C46_*: stopping loses buffered trains and the last reply, and may block for ever.
* C47_bool, C47_v1_metadata, C67_snapshot: numpy booleans are refused; metadata are not sent in
  protocol 1.0; arrays changed after feed() are sent changed in protocol 2.2.
* C47_documented_version_refuted: the docstring names protocol 2.1, which is refused; the code accepts 1.0 and 2.2.
* C94_command_refuted: karabo-bridge-serve-files ignores --source and --key.

Geometry
* C75_unit, C75_integers: the old geometry code reads tile positions in millimetres whatever the unit, and
  cannot assemble integer data.
* C76_description, C76_all_trains, C76_status, C76_empty_run, C76_file_line: lsxfel counts the trains of one
  sequence of files only, stops at a run without data files and at any file which is not of a detector when several
  paths are given (h5file.sources does not exist), and returns 0 for a single unrecognised directory; the description
  of an unknown source is a tuple.
* C49_far_edge, C54_agipd_unit, C69_interpolation, C70_invert_twice. Seen in the text: the header
  of CrystFEL files names AGIPD for all detectors; coffset is written in pixels; NaN filling of
  integer images is arbitrary.
* C80_cellid_refuted: the attribute axes of entry_1/cellId names module_identifier, but there is no
  such dataset in entry_1 (it is in the detector group).
* C92_compare_size_refuted, C92_compare_view_refuted: compare() leaves margins of 20 to 40 around the detector, meant
  as pixels, but the plot is in metres, so the detector is a speck; and it shows x increasing to the right where inspect()
  shows it increasing to the left. Seen in the text: it numbers tiles from 0, inspect() from 1.
* C93_half_pixel_refuted: images drawn by plot_data_fast are stretched by half a pixel to each side.
* C93_overlay_dssc_refuted: plot_data_fast draws rows of DSSC one pixel size apart although they are closer, so its axes
  disagree with those of inspect(), in pixels and in metres.

Validation
* C82_hidden_refuted: RunDirectory opens .h5 files whose names start with a dot, karabo-data-validate does not check
  them.
* C82_magic_refuted: for a directory with *, ? or [ in its name, karabo-data-validate checks the files of other
  directories, or none.

Places of the cache
* C86_copies_refuted: a copy of a run whose path has the same names from raw or proc on shares the cached map in the
  scratch space of the proposal with the original; with C33_same_stat_refuted, a copy with other contents but the
  same sizes and times is read with the map of the original.
* C86_newline_refuted: $ matches before a newline at the end of the path.

Order of selections
* C87_order_refuted: selecting trains drops the files without them, and a pattern which only matches sources of those
  files then raises ValueError, although selecting the data first and the trains afterwards succeeds.

Text of the cached map
* C88_surrogates_refuted: json.dump followed by json.load turns a high surrogate followed by a low one into the one
  character they encode.  Names decoded from bytes never contain this pair.

Small tools
* C91_header_refuted, C91_new_format: hdf5_to_cbf does not pass its header argument on, and works only on files of
  format 0.5.
* C90_all_members_refuted, C90_spaces_refuted: hdf5_paths leaves out the members of a group after the first hundred
  without saying so; names which begin with spaces look like members of the group before.
* C55_unpadded, C56_constructor, C56_past_end, C56_pos, C57_one_tuple. Seen in the text:
  lsxfel.summarise_file uses an attribute that does not exist.
* C84_all_names_refuted: a dataset with two hard links is listed under the first name visited only.

## Testing the theorems against wrong programs

/verif/seeded/LOG.jsonl has one line per edited definition: the edit, the claim it breaks, the
theorems or lemmas which failed to compile (all dependents of a failing lemma are lost, up to the
P_ file), and what was tightened after a survivor.
